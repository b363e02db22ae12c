(** Lemmas for C39, C40 and C49. *)
From Coq Require Import NArith ZArith List Bool Lia ZifyBool ZifyN.
From Verif Require Import Bits S2tte S2tteFacts State Granule RecFields RmiRec Psci Gic Esr SpecExit.
Import ListNotations.
Local Open Scope N_scope.

Lemma extract_field : forall x s w, EXTRACT w s x = field x s w.
Proof.
  intros. unfold EXTRACT, MASK, field. rewrite <- N.shiftr_div_pow2, <- N.land_ones.
  apply N.bits_inj. intro n. rewrite N.shiftr_spec', !N.land_spec, N.shiftr_spec'.
  rewrite N.shiftl_spec_high' by lia. f_equal. f_equal. lia.
Qed.

Lemma land_mask_field : forall x s w, N.land x (MASK w s) = field x s w * 2 ^ s.
Proof.
  intros. rewrite <- extract_field. unfold EXTRACT. rewrite <- N.shiftl_mul_pow2.
  apply N.bits_inj. intro n. rewrite testbit_shiftl, N.shiftr_spec', N.land_spec, testbit_mask.
  destruct (N.leb_spec s n).
  - replace (n - s + s) with n by lia. rewrite N.land_spec, testbit_mask.
    destruct (N.testbit x n); bit_cases; reflexivity.
  - cbn. apply andb_false_r.
Qed.

Lemma land_mask_eq0 : forall x s w, (N.land x (MASK w s) =? 0) = (field x s w =? 0).
Proof.
  intros. rewrite land_mask_field. pose proof (pow2_pos s).
  destruct (N.eqb_spec (field x s w) 0) as [->|E]; [reflexivity|].
  apply N.eqb_neq. intro. apply N.eq_mul_0 in H0. lia.
Qed.

Lemma field_testbit : forall x s w n, N.testbit (field x s w) n = (n <? w) && N.testbit x (n + s).
Proof.
  intros. rewrite <- extract_field. unfold EXTRACT.
  rewrite N.shiftr_spec', N.land_spec, testbit_mask, andb_comm. f_equal. bit_cases; reflexivity.
Qed.

Lemma field_zero_bits : forall x s w, field x s w = 0 <-> (forall n, s <= n -> n < s + w -> N.testbit x n = false).
Proof.
  intros. split.
  - intros H n A B. pose proof (field_testbit x s w (n - s)) as T. rewrite H, N.bits_0 in T.
    replace (n - s + s) with n in T by lia. destruct (N.ltb_spec (n - s) w); [|lia]. symmetry. exact T.
  - intro H. apply N.bits_inj_0. intro n. rewrite field_testbit. destruct (N.ltb_spec n w); [|reflexivity].
    cbn. apply H; lia.
Qed.

Lemma has_pow2 : forall x n, has x (2 ^ n) = N.testbit x n.
Proof.
  intros. unfold has. destruct (N.testbit x n) eqn:E.
  - destruct (N.eqb_spec (N.land x (2 ^ n)) 0) as [F|]; [|reflexivity].
    assert (T : N.testbit (N.land x (2 ^ n)) n = false) by (rewrite F; apply N.bits_0).
    rewrite N.land_spec, testbit_pow2, E, N.eqb_refl in T. discriminate.
  - replace (N.land x (2 ^ n)) with 0; [reflexivity|]. symmetry. apply N.bits_inj_0. intro m.
    rewrite N.land_spec, testbit_pow2. destruct (N.eqb_spec m n) as [->|]; [rewrite E; reflexivity|apply andb_false_r].
Qed.

Lemma has_field : forall x n, has x (2 ^ n) = negb (field x n 1 =? 0).
Proof.
  intros. unfold has. f_equal. rewrite <- land_mask_eq0. f_equal. f_equal. unfold MASK.
  change (N.ones 1) with 1. rewrite N.shiftl_1_l. reflexivity.
Qed.

(* ------------------------------------------------------------------ *)
(** * C39 *)

Lemma hcr_ok_iff : forall h, (N.ldiff h ICH_HCR_EL2_NS_MASK =? 0) = true <-> hcr_ok h.
Proof.
  intros. rewrite N.eqb_eq. unfold hcr_ok. split.
  - intros H b T. assert (K : N.testbit (N.ldiff h ICH_HCR_EL2_NS_MASK) b = false) by (rewrite H; apply N.bits_0).
    rewrite N.ldiff_spec, T in K. cbn [andb] in K. apply negb_false_iff in K.
    assert (B : b < 16).
    { destruct (N.ltb_spec b 16); [assumption|].
      rewrite (testbit_false_lt ICH_HCR_EL2_NS_MASK 16) in K; [discriminate|reflexivity|assumption]. }
    assert (C : In b (map N.of_nat (seq 0 16))).
    { replace b with (N.of_nat (N.to_nat b)) by lia. apply in_map. apply in_seq. lia. }
    cbn in C. repeat destruct C as [<-|C]; try (vm_compute in K; discriminate K); cbn; tauto.
  - intro H. apply N.bits_inj_0. intro b. rewrite N.ldiff_spec. destruct (N.testbit h b) eqn:T; [|reflexivity].
    specialize (H b T). cbn in H. repeat destruct H as [<-|H]; try reflexivity. contradiction.
Qed.

Lemma lr_invalid_iff : forall lr, lr_invalid lr = true <-> lr_empty lr.
Proof. intros. unfold lr_invalid, ICH_LR_STATE_MASK, lr_empty. rewrite land_mask_eq0. apply N.eqb_eq. Qed.

Lemma lr_intid_field : forall lr, lr_intid lr = vintid lr.
Proof. intros. unfold lr_intid, vintid. apply extract_field. Qed.

Lemma vtr_facts : forall vtr ext f, gic_get_virt_features vtr ext = Some f ->
  vtr_list_regs vtr = gf_nr_lrs f + 1 /\ gf_nr_lrs f < 16 /\ 2 ^ vtr_id_bits vtr = gf_max_vintid f + 1 /\
  gf_pri_res0 f = N.ones (8 - vtr_pri_bits vtr) /\ gf_ext_range f = ext.
Proof.
  intros vtr ext f. unfold gic_get_virt_features. rewrite !extract_field.
  destruct (N.ltb_spec (field vtr 0 5) 16); cbn [andb]; [|discriminate].
  destruct (N.leb_spec 5 (field vtr 26 3 + 1)); [|discriminate].
  intro E. injection E as <-. cbn [gf_nr_lrs gf_max_vintid gf_pri_res0 gf_ext_range].
  split; [reflexivity|]. split; [assumption|]. split.
  - unfold vtr_id_bits. destruct (field vtr 23 3 =? 0); reflexivity.
  - split; [|reflexivity]. unfold vtr_pri_bits. rewrite N.ones_equiv, N.pred_sub. reflexivity.
Qed.

Lemma intid_ok_iff : forall vtr ext f n, gic_get_virt_features vtr ext = Some f ->
  is_valid_vintid f n = true <-> intid_ok vtr ext n.
Proof.
  intros vtr ext f n E. destruct (vtr_facts _ _ _ E) as (_ & _ & M & _ & X).
  unfold is_valid_vintid, intid_ok. rewrite M, X. clear.
  destruct ((n <=? 1019) || (8192 <=? n) && (n <=? gf_max_vintid f)) eqn:Q; destruct ext; cbn iota; lia.
Qed.

Lemma res0_iff : forall lr, (N.ldiff (N.land lr (MASK 13 32)) ICH_LR_EOI_BIT =? 0) = true <->
  field lr 32 9 = 0 /\ field lr 42 3 = 0.
Proof.
  intros. rewrite N.eqb_eq, !field_zero_bits. unfold ICH_LR_EOI_BIT.
  assert (T : forall n, N.testbit (N.ldiff (N.land lr (MASK 13 32)) (2 ^ 41)) n =
              N.testbit lr n && ((32 <=? n) && (n <? 45)) && negb (n =? 41)).
  { intro n. rewrite N.ldiff_spec, N.land_spec, testbit_mask, testbit_pow2. reflexivity. }
  split.
  - intro H. rewrite H in T. split; intros n A B; specialize (T n); rewrite N.bits_0 in T;
      destruct (N.testbit lr n); cbn [andb] in T; try reflexivity; exfalso; clear H; lia.
  - intros [A B]. apply N.bits_inj_0. intro n. rewrite T. clear T.
    destruct (N.testbit lr n) eqn:E; [|reflexivity]. cbn [andb].
    destruct (N.leb_spec 32 n); [|reflexivity]. destruct (N.ltb_spec n 45); [|reflexivity]. cbn [andb].
    destruct (N.eqb_spec n 41); [reflexivity|]. exfalso.
    destruct (N.ltb_spec n 41).
    + rewrite A in E; [discriminate|lia|lia].
    + rewrite B in E; [discriminate|lia|lia].
Qed.

Lemma lr_bad_iff : forall vtr ext f lr, gic_get_virt_features vtr ext = Some f ->
  lr_bad f lr = false <-> lr_ok vtr ext lr.
Proof.
  intros vtr ext f lr E. unfold lr_bad, lr_ok, priority_ok.
  rewrite !orb_false_iff, !negb_false_iff. rewrite (intid_ok_iff vtr ext) by exact E. rewrite lr_intid_field.
  rewrite res0_iff. destruct (vtr_facts _ _ _ E) as (_ & _ & _ & -> & _).
  rewrite N.land_ones, extract_field. rewrite !N.eqb_eq.
  pose proof (has_field lr 61) as Hh. unfold has in Hh. change (2 ^ 61) with ICH_LR_HW_BIT in Hh.
  assert (W : N.land lr ICH_LR_HW_BIT = 0 <-> field lr 61 1 = 0).
  { rewrite <- !N.eqb_eq. destruct (N.land lr ICH_LR_HW_BIT =? 0), (field lr 61 1 =? 0); cbn in Hh; try discriminate; tauto. }
  rewrite W. tauto.
Qed.

Lemma lr_dup_iff : forall lrs x js,
  lr_dup lrs x js = false <-> forall j, In j js -> ~ lr_empty (lrs j) -> x <> vintid (lrs j).
Proof.
  induction js as [|j tl IH]; cbn [lr_dup In].
  - split; [intros _ j []|reflexivity].
  - destruct (lr_invalid (lrs j)) eqn:V.
    + rewrite IH. apply lr_invalid_iff in V. split; intros H k; [intros [<-|K] Q; [contradiction|eauto]|intros K Q; eauto].
    + assert (V' : ~ lr_empty (lrs j)) by (intro Q; apply lr_invalid_iff in Q; congruence).
      destruct (N.eqb_spec x (lr_intid (lrs j))) as [Q|Q]; rewrite lr_intid_field in Q.
      * split; [discriminate|]. intro H. exfalso. apply (H j); auto.
      * rewrite IH. split; intros H k; [intros [<-|K] R; [assumption|eauto]|intros K R; eauto].
Qed.

Fixpoint pairwise (R : N -> N -> Prop) (l : list N) : Prop :=
  match l with [] => True | x :: tl => (forall y, In y tl -> R x y) /\ pairwise R tl end.

Lemma lrs_valid_iff : forall vtr ext f lrs is, gic_get_virt_features vtr ext = Some f ->
  lrs_valid f lrs is = true <->
  (forall i, In i is -> lr_empty (lrs i) \/ lr_ok vtr ext (lrs i)) /\
  pairwise (fun i j => ~ lr_empty (lrs i) -> ~ lr_empty (lrs j) -> vintid (lrs i) <> vintid (lrs j)) is.
Proof.
  intros vtr ext f lrs is E. induction is as [|i tl IH]; cbn [lrs_valid pairwise In].
  - split; [intros _; split; [intros i []|exact I]|reflexivity].
  - destruct (lr_invalid (lrs i)) eqn:V.
    + apply lr_invalid_iff in V. rewrite IH. split.
      * intros [A B]. split; [intros k [<-|K]; auto|]. split; [intros y _ N; contradiction|exact B].
      * intros [A [_ B]]. split; [intros; apply A; auto|exact B].
    + assert (V' : ~ lr_empty (lrs i)) by (intro Q; apply lr_invalid_iff in Q; congruence).
      destruct (lr_bad f (lrs i)) eqn:Bd.
      * split; [discriminate|]. intros [A _]. exfalso. destruct (A i (or_introl eq_refl)) as [Q|Q]; [contradiction|].
        apply (lr_bad_iff _ _ f) in Q; [congruence|exact E].
      * apply (lr_bad_iff _ _ _ _ E) in Bd. destruct (lr_dup lrs (lr_intid (lrs i)) tl) eqn:D.
        -- split; [discriminate|]. intros [_ [A _]]. exfalso.
           assert (lr_dup lrs (lr_intid (lrs i)) tl = false); [|congruence].
           apply lr_dup_iff. intros j J N. rewrite lr_intid_field. apply A; auto.
        -- rewrite lr_dup_iff, lr_intid_field in D. rewrite IH. split.
           ++ intros [A B]. split; [intros k [<-|K]; auto|]. split; [intros; apply D; auto|exact B].
           ++ intros [A [_ B]]. split; [intros; apply A; auto|exact B].
Qed.

Lemma pairwise_seq : forall R n a,
  pairwise R (map N.of_nat (seq a n)) <->
  forall i j, N.of_nat a <= i -> i < j -> j < N.of_nat (a + n) -> R i j.
Proof.
  induction n as [|n IH]; intro a; cbn [seq map pairwise].
  - split; [intros _ i j A B C; lia|auto].
  - rewrite IH. split.
    + intros [A B] i j H1 H2 H3. destruct (N.eq_dec i (N.of_nat a)) as [->|N].
      * apply A. replace j with (N.of_nat (N.to_nat j)) by lia. apply in_map, in_seq. lia.
      * apply B; lia.
    + intro H. split.
      * intros y Y. apply in_map_iff in Y. destruct Y as (k & <- & K). apply in_seq in K. apply H; lia.
      * intros. apply H; lia.
Qed.

Lemma gic_validate_iff : forall vtr ext f e, gic_get_virt_features vtr ext = Some f ->
  gic_validate_state f e = true <-> gic_entry_ok vtr ext (en_gicv3_hcr e) (en_gicv3_lrs e).
Proof.
  intros vtr ext f e E. unfold gic_validate_state, gic_entry_ok.
  destruct (N.ldiff (en_gicv3_hcr e) ICH_HCR_EL2_NS_MASK =? 0) eqn:H; cbn [negb].
  - apply hcr_ok_iff in H. rewrite (lrs_valid_iff vtr ext) by exact E. unfold lr_indices. rewrite pairwise_seq.
    destruct (vtr_facts _ _ _ E) as (-> & _).
    assert (L : forall i, In i (map N.of_nat (seq 0 (N.to_nat (gf_nr_lrs f) + 1))) <-> i < gf_nr_lrs f + 1).
    { intro i. rewrite in_map_iff. split; [intros (k & <- & K); apply in_seq in K; lia|].
      intro. exists (N.to_nat i). split; [lia|]. apply in_seq. lia. }
    setoid_rewrite L. split.
    + intros [A B]. split; [exact H|]. split; [exact A|]. intros i j I1 I2. apply B; lia.
    + intros [_ [A B]]. split; [exact A|]. intros i j _ I1 I2. apply B; lia.
  - split; [discriminate|]. intros [A _]. apply hcr_ok_iff in A. congruence.
Qed.

(** What is taken over from the host *)
Lemma copy_hcr_bits : forall f s e b,
  N.testbit (gic_hcr (gic_copy_state_from_rec_entry f s e)) b =
  if N.testbit ICH_HCR_EL2_NS_MASK b then N.testbit (en_gicv3_hcr e) b else N.testbit (gic_hcr s) b.
Proof.
  intros. cbn [gic_copy_state_from_rec_entry gic_hcr]. rewrite N.lor_spec, N.ldiff_spec, N.land_spec.
  destruct (N.testbit ICH_HCR_EL2_NS_MASK b); cbn; rewrite ?andb_false_r, ?andb_true_r, ?orb_false_r; reflexivity.
Qed.

(* ------------------------------------------------------------------ *)
(** * C40 *)

Lemma field_lt : forall x s w, field x s w < 2 ^ w.
Proof. intros. unfold field. apply N.mod_lt. pose proof (pow2_pos w). lia. Qed.

Lemma field1_cases : forall x s, field x s 1 = 0 \/ field x s 1 = 1.
Proof. intros. pose proof (field_lt x s 1). change (2 ^ 1) with 2 in H. lia. Qed.

Lemma lxor_sub : forall w v, v < 2 ^ (w + 1) ->
  wrap64 (N.lxor v (2 ^ w) + (2 ^ 64 - 2 ^ w)) = (if v <? 2 ^ w then v else v + (2 ^ 64 - 2 ^ (w + 1))) mod 2 ^ 64
  \/ 64 < w + 1.
Proof.
  intros w v H. destruct (N.ltb_spec 64 (w + 1)); [right; assumption|left].
  assert (P : 2 ^ (w + 1) = 2 * 2 ^ w) by (rewrite N.pow_add_r; lia).
  assert (Q : 2 ^ (w + 1) <= 2 ^ 64) by (apply pow2_le; assumption).
  pose proof (pow2_pos w). unfold wrap64.
  destruct (N.ltb_spec v (2 ^ w)).
  - assert (N.lxor v (2 ^ w) = v + 2 ^ w) as ->.
    { rewrite N.add_nocarry_lxor; [reflexivity|]. apply N.bits_inj_0. intro n. rewrite N.land_spec, testbit_pow2.
      destruct (N.eqb_spec n w) as [->|]; [|apply andb_false_r]. rewrite (testbit_false_lt v w); [reflexivity|assumption|lia]. }
    replace (v + 2 ^ w + (2 ^ 64 - 2 ^ w)) with (v + 1 * 2 ^ 64) by lia. apply N.mod_add. discriminate.
  - assert (N.lxor v (2 ^ w) = v - 2 ^ w) as ->.
    { apply N.add_cancel_r with (p := 2 ^ w). replace (v - 2 ^ w + 2 ^ w) with v by lia.
      assert (T : N.testbit v w = true).
      { apply N.testbit_true.
        assert (v / 2 ^ w = 1) as ->; [|reflexivity].
        symmetry. apply N.div_unique with (r := v - 2 ^ w); lia. }
      rewrite N.add_nocarry_lxor.
      - rewrite N.lxor_assoc, N.lxor_nilpotent, N.lxor_0_r. reflexivity.
      - apply N.bits_inj_0. intro n. rewrite N.land_spec, N.lxor_spec, testbit_pow2.
        destruct (N.eqb_spec n w) as [->|]; [rewrite T; reflexivity|apply andb_false_r]. }
    f_equal. lia.
Qed.

Lemma mmio_read_value_spec : forall esr value, Z.of_N (mmio_read_value esr value) = load_value esr value.
Proof.
  intros. unfold mmio_read_value, load_value, esr_sign_extend, esr_sixty_four, access_len, access_mask, esr_sas, acc_bits, SSE_BIT, SF_BIT.
  rewrite !has_field, extract_field, negb_involutive || rewrite !has_field, extract_field.
  pose proof (field_lt esr 22 2) as F. change (2 ^ 2) with 4 in F.
  assert (C : forall w k, (w = 8 \/ w = 16 \/ w = 32 \/ w = 64) -> k = w ->
    Z.of_N (let val := N.land value (N.ones w) in
      if negb (field esr 21 1 =? 0) then
        let mask := 2 ^ (k - 1) in
        let val := wrap64 (N.lxor val mask + (2 ^ 64 - mask)) in
        if negb (field esr 15 1 =? 0) then val else N.land val (2 ^ 32 - 1) else val) =
    (let v := (Z.of_N value mod 2 ^ Z.of_N w)%Z in
     if field esr 21 1 =? 0 then v
     else (signed (Z.of_N w) v mod 2 ^ (if (field esr 15 1 =? 0)%N then 32 else 64))%Z)).
  { intros w k W ->. cbn zeta.
    assert (V : Z.of_N (N.land value (N.ones w)) = (Z.of_N value mod 2 ^ Z.of_N w)%Z).
    { rewrite N.land_ones, N2Z.inj_mod, N2Z.inj_pow. reflexivity. }
    destruct (field esr 21 1 =? 0); cbn [negb]; [exact V|].
    assert (L : N.land value (N.ones w) < 2 ^ (w - 1 + 1)).
    { replace (w - 1 + 1) with w by lia. rewrite N.land_ones. apply N.mod_lt. pose proof (pow2_pos w). lia. }
    rewrite <- V. clear V. set (v := N.land value (N.ones w)) in *. clearbody v.
    destruct (lxor_sub (w - 1) v L) as [->|]; [|exfalso; lia].
    change (2 ^ 32 - 1) with (N.ones 32). rewrite N.land_ones.
    unfold signed.
    destruct W as [->|[->|[->| ->]]];
      [change (8 - 1 + 1) with 8 in *; change (8 - 1) with 7; change (Z.of_N 8 - 1)%Z with 7%Z; change (Z.of_N 8) with 8%Z
      |change (16 - 1 + 1) with 16 in *; change (16 - 1) with 15; change (Z.of_N 16 - 1)%Z with 15%Z; change (Z.of_N 16) with 16%Z
      |change (32 - 1 + 1) with 32 in *; change (32 - 1) with 31; change (Z.of_N 32 - 1)%Z with 31%Z; change (Z.of_N 32) with 32%Z
      |change (64 - 1 + 1) with 64 in *; change (64 - 1) with 63; change (Z.of_N 64 - 1)%Z with 63%Z; change (Z.of_N 64) with 64%Z];
      match goal with |- context [v <? ?a] => destruct (N.ltb_spec v a) end;
      match goal with |- context [(Z.of_N v <? ?a)%Z] => destruct (Z.ltb_spec (Z.of_N v) a) end; try lia;
      destruct (field esr 15 1 =? 0); cbn [negb]; lia. }
  destruct (field esr 22 2) as [|p] eqn:Q; [apply (C 8 8); auto|].
  destruct p as [p|p|].
  - destruct p; try lia. apply (C 64 64); auto.
  - destruct p; try lia. apply (C 32 32); auto.
  - apply (C 16 16); auto.
Qed.

Lemma complete_mmio_off : forall r e,
  N.testbit (en_flags e) 0 = false \/ N.testbit (en_flags e) 1 = true ->
  complete_mmio_emulation r e = Some r.
Proof.
  intros r e H. unfold complete_mmio_emulation, FLAG_EMUL_MMIO, FLAG_INJECT_SEA. rewrite !has_pow2.
  destruct H as [-> | ->]; [reflexivity|]. destruct (N.testbit (en_flags e) 0); reflexivity.
Qed.

Lemma esr_ec_field : forall esr n, n < 64 -> (esr_ec esr =? EC n) = (field esr 26 6 =? n).
Proof.
  intros. unfold esr_ec, EC_MASK, EC, INPLACE. rewrite !land_mask_field.
  assert (field (N.shiftl n 26) 26 6 = n) as ->.
  { unfold field. rewrite N.shiftl_mul_pow2, N.div_mul by discriminate. apply N.mod_small. exact H. }
  destruct (N.eqb_spec (field esr 26 6) n) as [->|N]; [apply N.eqb_refl|]. apply N.eqb_neq.
  intro Q. apply N.mul_cancel_r in Q; [contradiction|discriminate].
Qed.

Lemma complete_mmio_spec : forall r e,
  N.testbit (en_flags e) 0 = true -> N.testbit (en_flags e) 1 = false ->
  match complete_mmio_emulation r e with
  | None => field (r_last_esr r) 26 6 <> 36 \/ N.testbit (r_last_esr r) 24 = false
  | Some r' =>
    field (r_last_esr r) 26 6 = 36 /\ N.testbit (r_last_esr r) 24 = true /\
    r_pc r' = (r_pc r + 4) mod 2 ^ 64 /\
    (forall n, r_regs r' n =
       if N.testbit (r_last_esr r) 6 then r_regs r n
       else if (n =? field (r_last_esr r) 16 5) && negb (n =? 31)
            then Z.to_N (load_value (r_last_esr r) (en_gprs e 0)) else r_regs r n) /\
    set_pc (set_regs r' (r_regs r)) (r_pc r) = r
  end.
Proof.
  intros r e F1 F2. unfold complete_mmio_emulation, FLAG_EMUL_MMIO, FLAG_INJECT_SEA, EC_DATA_ABORT, ISV_BIT.
  rewrite !has_pow2, F1, F2, (esr_ec_field _ 36) by reflexivity. cbn [negb].
  destruct (N.eqb_spec (field (r_last_esr r) 26 6) 36); cbn [negb orb]; [|auto].
  destruct (N.testbit (r_last_esr r) 24); cbn [negb]; [|auto].
  split; [assumption|]. split; [reflexivity|].
  unfold esr_is_write, WNR_BIT, esr_srt. rewrite has_pow2, extract_field.
  split; [reflexivity|]. split.
  - intro n. destruct (N.testbit (r_last_esr r) 6); cbn [negb andb]; [reflexivity|].
    rewrite <- mmio_read_value_spec, N2Z.id.
    destruct (N.eqb_spec (field (r_last_esr r) 16 5) 31) as [->|N]; cbn [negb andb].
    + cbn [r_regs set_pc]. destruct (n =? 31); reflexivity.
    + cbn [r_regs set_pc set_reg set_regs]. unfold upd.
      destruct (N.eqb_spec n (field (r_last_esr r) 16 5)) as [->|]; [|reflexivity].
      destruct (N.eqb_spec (field (r_last_esr r) 16 5) 31); [contradiction|reflexivity].
  - destruct (negb (N.testbit (r_last_esr r) 6) && negb (field (r_last_esr r) 16 5 =? 31)); destruct r; reflexivity.
Qed.

(* ------------------------------------------------------------------ *)
(** * C49 *)

Lemma vector_spec : forall vbar spsr ease, realm_mode spsr ->
  ~ (from_el0 spsr = true /\ aarch32 spsr = true /\ ease = true) ->
  calc_vector_entry vbar spsr ease = Some (vector_entry vbar spsr ease).
Proof.
  intros vbar spsr ease M A. unfold calc_vector_entry, vector_entry, vector_base, from_el0, aarch32, realm_mode in *.
  rewrite !land_mask_field, N.pow_0_r, N.mul_1_r.
  destruct M as [M|[M|[M|[]]]]; rewrite <- M in *; cbn [N.eqb Pos.eqb] in *; cbn iota in *.
  - replace (field spsr 4 1 * 2 ^ 4 =? 0) with (field spsr 4 1 =? 0).
    2:{ destruct (N.eqb_spec (field spsr 4 1) 0) as [->|]; [reflexivity|]. symmetry. apply N.eqb_neq. lia. }
    unfold wrap64. destruct (field spsr 4 1 =? 0), ease; cbn [negb] in *; try (f_equal; f_equal; lia).
  - destruct ease; f_equal; unfold wrap64; f_equal; lia.
  - destruct ease; f_equal; unfold wrap64; f_equal; lia.
Qed.

Lemma calc_esr_spec : forall esr spsr fsc, In (field esr 26 6) [32; 36] -> fsc < 64 ->
  exists e1, calc_esr_idabort esr spsr fsc = Some e1 /\ injected_esr esr spsr fsc e1.
Proof.
  intros esr spsr fsc C F. unfold calc_esr_idabort, EC_INST_ABORT, EC_DATA_ABORT.
  rewrite !esr_ec_field by reflexivity.
  assert ((field esr 26 6 =? 32) || (field esr 26 6 =? 36) = true) as ->.
  { destruct C as [C|[C|[]]]; rewrite <- C; reflexivity. }
  cbn [negb].
  assert (N.ldiff fsc FSC_MASK =? 0 = true) as ->.
  { apply N.eqb_eq. apply N.bits_inj_0. intro n. rewrite N.ldiff_spec. unfold FSC_MASK. rewrite testbit_mask.
    destruct (N.leb_spec 6 n).
    - rewrite (testbit_false_lt fsc 6); [reflexivity|exact F|assumption].
    - clear - H. destruct (N.testbit fsc n); cbn [andb]; [|reflexivity]. bit_cases; reflexivity. }
  cbn [negb]. eexists. split; [reflexivity|]. intro n.
  rewrite land_mask_field, N.pow_0_r, N.mul_1_r. fold (from_el0 spsr).
  assert (K : (if from_el0 spsr then esr_ec esr else esr_ec esr + 2 ^ 26) =
              N.shiftl (field esr 26 6 + (if from_el0 spsr then 0 else 1)) 26).
  { unfold esr_ec, EC_MASK. rewrite land_mask_field, N.shiftl_mul_pow2. destruct (from_el0 spsr); lia. }
  rewrite K. clear K. set (ec := field esr 26 6 + (if from_el0 spsr then 0 else 1)).
  assert (E : ec < 2 ^ 6).
  { unfold ec. change (2 ^ 6) with 64. clear - C. destruct C as [C|[C|[]]]; rewrite <- C; destruct (from_el0 spsr); reflexivity. }
  clearbody ec. clear C. unfold EC_MASK, FSC_MASK, FNV_BIT, S1PTW_BIT, EA_BIT. cbn [fold_right].
  rewrite !N.lor_spec, N.ldiff_spec, !N.lor_spec, !testbit_mask, !testbit_pow2, testbit_shiftl, N.bits_0.
  destruct (N.ltb_spec n 6).
  { assert (0 <=? n = true) as -> by (apply N.leb_le; lia).
    assert (n <? 0 + 6 = true) as -> by (apply N.ltb_lt; lia).
    assert (26 <=? n = false) as -> by (apply N.leb_gt; lia).
    assert (n =? 9 = false) as -> by (apply N.eqb_neq; lia). 
    destruct (N.testbit esr n), (N.testbit fsc n); reflexivity. }
  rewrite (testbit_false_lt fsc 6 n) by assumption.
  assert (n <? 0 + 6 = false) as -> by (apply N.ltb_ge; lia). rewrite andb_false_r.
  change (26 + 6) with 32.
  destruct (N.eqb_spec n 7) as [->|]; [destruct (N.testbit esr 7); reflexivity|].
  destruct (N.eqb_spec n 9) as [->|]; [destruct (N.testbit esr 9); reflexivity|].
  destruct (N.eqb_spec n 10) as [->|]; [destruct (N.testbit esr 10); reflexivity|].
  rewrite !orb_false_r.
  destruct (N.leb_spec 26 n); cbn [andb].
  - destruct (N.ltb_spec n 32); cbn [negb].
    + rewrite andb_false_r. reflexivity.
    + rewrite (testbit_false_lt ec 6); [|assumption|lia]. rewrite andb_true_r, orb_false_r. reflexivity.
  - cbn [negb]. rewrite andb_true_r, orb_false_r. reflexivity.
Qed.

Lemma inject_idabort_spec : forall r esr far fsc,
  realm_mode (r_pstate r) -> In (field esr 26 6) [32; 36] -> fsc < 64 ->
  ~ (from_el0 (r_pstate r) = true /\ aarch32 (r_pstate r) = true /\ N.testbit (r_sys r SCTLR2_EL1) 5 = true) ->
  exists r', inject_sync_idabort r esr far fsc = Some r' /\
    r_pc r' = vector_entry (r_sys r VBAR_EL1) (r_pstate r) (N.testbit (r_sys r SCTLR2_EL1) 5) /\
    r_pstate r' = pstate_el1h /\
    r_sys r' FAR_EL1 = far /\ r_sys r' ELR_EL1 = r_pc r /\ r_sys r' SPSR_EL1 = r_pstate r /\
    injected_esr esr (r_pstate r) fsc (r_sys r' ESR_EL1) /\
    (forall q, ~ In q [FAR_EL1; ELR_EL1; SPSR_EL1; ESR_EL1] -> r_sys r' q = r_sys r q) /\
    set_sys (set_pstate (set_pc r' (r_pc r)) (r_pstate r)) (r_sys r) = r.
Proof.
  intros r esr far fsc M C F A. unfold inject_sync_idabort.
  destruct (calc_esr_spec esr (r_pstate r) fsc C F) as (e1 & -> & E).
  unfold SCTLR2_EASE_BIT. rewrite has_pow2, vector_spec by assumption.
  eexists. split; [reflexivity|].
  split; [reflexivity|]. split; [reflexivity|]. split; [reflexivity|]. split; [reflexivity|]. split; [reflexivity|].
  split; [exact E|]. split.
  - intros q Q. cbn [r_sys set_pstate set_pc set_sysreg set_sys]. unfold upd_sys.
    destruct q; try reflexivity; exfalso; apply Q; cbn; tauto.
  - destruct r; reflexivity.
Qed.

Lemma inject_undef_spec : forall r, realm_mode (r_pstate r) ->
  exists r', realm_inject_undef_abort r = Some r' /\
    r_pc r' = vector_entry (r_sys r VBAR_EL1) (r_pstate r) false /\
    r_pstate r' = pstate_el1h /\
    r_sys r' ELR_EL1 = r_pc r /\ r_sys r' SPSR_EL1 = r_pstate r /\ r_sys r' ESR_EL1 = 2 ^ 25 /\
    (forall q, ~ In q [ELR_EL1; SPSR_EL1; ESR_EL1] -> r_sys r' q = r_sys r q) /\
    set_sys (set_pstate (set_pc r' (r_pc r)) (r_pstate r)) (r_sys r) = r.
Proof.
  intros r M. unfold realm_inject_undef_abort. rewrite vector_spec; [|assumption|intros (_ & _ & H); discriminate].
  eexists. split; [reflexivity|].
  split; [reflexivity|]. split; [reflexivity|]. split; [reflexivity|]. split; [reflexivity|]. split; [reflexivity|]. split.
  - intros q Q. cbn [r_sys set_pstate set_pc set_sysreg set_sys]. unfold upd_sys.
    destruct q; try reflexivity; exfalso; apply Q; cbn; tauto.
  - destruct r; reflexivity.
Qed.

Lemma copy_hcr_listed : forall f s e b,
  N.testbit (gic_hcr (gic_copy_state_from_rec_entry f s e)) b =
  if existsb (N.eqb b) [1; 2; 3; 4; 5; 6; 7; 14] then N.testbit (en_gicv3_hcr e) b else N.testbit (gic_hcr s) b.
Proof.
  intros. rewrite copy_hcr_bits. change ICH_HCR_EL2_NS_MASK with (fold_right (fun k a => N.lor (2 ^ k) a) 0 [1; 2; 3; 4; 5; 6; 7; 14]).
  generalize [1; 2; 3; 4; 5; 6; 7; 14]. intro l.
  replace (N.testbit (fold_right (fun k a => N.lor (2 ^ k) a) 0 l) b) with (existsb (N.eqb b) l); [reflexivity|].
  induction l as [|k l IH]; cbn [existsb fold_right]; [symmetry; apply N.bits_0|].
  rewrite N.lor_spec, testbit_pow2, <- IH. reflexivity.
Qed.

Lemma inject_aarch32_ease : exists r esr,
  realm_mode (r_pstate r) /\ In (field esr 26 6) [32; 36] /\ N.testbit (r_sys r SCTLR2_EL1) 5 = true /\
  match inject_sync_idabort r esr 0 16 with
  | Some r' => r_pc r' <> vector_entry (r_sys r VBAR_EL1) (r_pstate r) true
  | None => True
  end.
Proof.
  exists (mkRec 0 true (fun _ => 0) 0 0 16 (fun _ => 32)
        (mkGic (fun _ => 0) (fun _ => 0) 0 0 (fun _ => 0) 0) 0 0 0 0 (mkReq 0 0 0 0 0 0) 0 false 0 0 (mkSimd false 0)
        (mkCtx 33 1 1 0 0 false) 0 0 0 false [] 0 false false), (36 * 2 ^ 26).
  vm_compute. repeat split; auto; discriminate.
Qed.
