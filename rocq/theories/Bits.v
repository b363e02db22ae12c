(** Bit-field helpers on 64-bit words represented as [N]. *)
From Coq Require Import NArith ZArith List Bool Lia ZifyBool ZifyN ZifyNat.
Local Open Scope N_scope.

Ltac Zify.zify_post_hook ::= Z.div_mod_to_equations.

(** lib/common/include/utils_def.h: MASK(regfield) = (~0UL >> (64 - W)) << S *)
Definition MASK (width shift : N) : N := N.shiftl (N.ones width) shift.

(** utils_def.h: EXTRACT(regfield, reg) = (reg & MASK) >> SHIFT *)
Definition EXTRACT (width shift reg : N) : N :=
  N.shiftr (N.land reg (MASK width shift)) shift.

(** utils_def.h:201-202: INPLACE(regfield, val) = val << SHIFT; the mask here is a
    simplification: every value that the model passes fits its field *)
Definition INPLACE (width shift val : N) : N :=
  N.land (N.shiftl val shift) (MASK width shift).

(** utils_def.h: BIT_MASK_ULL(msb, lsb), all bits lsb..msb set, 0 if msb < lsb *)
Definition BIT_MASK (msb lsb : N) : N := N.shiftl (N.ones (msb + 1 - lsb)) lsb.

(** utils_def.h: ALIGNED(x, 2^k) *)
Definition aligned (x k : N) : bool := x mod 2 ^ k =? 0.

(** 64-bit wrap *)
Definition wrap64 (x : N) : N := x mod 2 ^ 64.

(* ------------------------------------------------------------------ *)
(** * Lemmas *)

Lemma testbit_false_lt : forall a k n, a < 2 ^ k -> k <= n -> N.testbit a n = false.
Proof.
  intros a k n H Hn.
  destruct (N.eq_dec a 0) as [->|Ha]; [apply N.bits_0|].
  apply N.bits_above_log2.
  apply N.log2_lt_pow2; [lia|].
  eapply N.lt_le_trans; [exact H|].
  apply N.pow_le_mono_r; lia.
Qed.

Lemma testbit_low_aligned : forall a k n, a mod 2 ^ k = 0 -> n < k -> N.testbit a n = false.
Proof.
  intros a k n H Hn.
  rewrite <- (N.mod_pow2_bits_low a k n Hn), H.
  apply N.bits_0.
Qed.

Lemma testbit_ones : forall w n, N.testbit (N.ones w) n = (n <? w).
Proof.
  intros w n. destruct (N.ltb_spec n w).
  - apply N.ones_spec_low; assumption.
  - apply N.ones_spec_high; assumption.
Qed.

Lemma testbit_shiftl : forall a s n,
  N.testbit (N.shiftl a s) n = (s <=? n) && N.testbit a (n - s).
Proof.
  intros a s n. destruct (N.leb_spec s n).
  - rewrite N.shiftl_spec_high' by assumption. reflexivity.
  - rewrite N.shiftl_spec_low by assumption. reflexivity.
Qed.

Lemma testbit_shiftr : forall a s n, N.testbit (N.shiftr a s) n = N.testbit a (n + s).
Proof. intros. apply N.shiftr_spec'. Qed.

Lemma testbit_mask : forall w s n,
  N.testbit (MASK w s) n = (s <=? n) && (n <? s + w).
Proof.
  intros. unfold MASK. rewrite testbit_shiftl, testbit_ones.
  destruct (N.leb_spec s n); cbn [andb]; [|reflexivity].
  destruct (N.ltb_spec (n - s) w), (N.ltb_spec n (s + w)); reflexivity || lia.
Qed.

Lemma testbit_bitmask : forall m l n,
  N.testbit (BIT_MASK m l) n = (l <=? n) && (n <=? m).
Proof.
  intros. unfold BIT_MASK. rewrite testbit_shiftl, testbit_ones.
  destruct (N.leb_spec l n); cbn [andb]; [|reflexivity].
  destruct (N.ltb_spec (n - l) (m + 1 - l)), (N.leb_spec n m); reflexivity || lia.
Qed.

Lemma testbit_pow2 : forall k n, N.testbit (2 ^ k) n = (n =? k).
Proof.
  intros k n. destruct (N.eqb_spec n k) as [->|H].
  - apply N.pow2_bits_true.
  - apply N.pow2_bits_false. congruence.
Qed.

#[export] Hint Rewrite N.land_spec N.lor_spec N.ldiff_spec N.lxor_spec testbit_shiftl testbit_shiftr
  testbit_ones testbit_mask testbit_bitmask testbit_pow2 N.bits_0 : tbit.

Lemma land_low : forall a k m, a mod 2 ^ k = 0 -> m < 2 ^ k -> N.land a m = 0.
Proof.
  intros a k m Ha Hm. apply N.bits_inj. intro n.
  rewrite N.land_spec, N.bits_0.
  destruct (N.lt_ge_cases n k).
  - rewrite (testbit_low_aligned a k n); auto.
  - rewrite (testbit_false_lt m k n); auto. apply andb_false_r.
Qed.

Lemma land_high : forall a k m, a < 2 ^ k -> m mod 2 ^ k = 0 -> N.land a m = 0.
Proof. intros. rewrite N.land_comm. eapply land_low; eauto. Qed.

Lemma mod_pow2_le : forall a k l, l <= k -> a mod 2 ^ k = 0 -> a mod 2 ^ l = 0.
Proof.
  intros a k l Hl H.
  assert (E : 2 ^ k = 2 ^ l * 2 ^ (k - l)).
  { rewrite <- N.pow_add_r. f_equal. lia. }
  apply N.mod_divide in H; [|apply N.pow_nonzero; lia].
  destruct H as [c Hc]. rewrite Hc, E.
  replace (c * (2 ^ l * 2 ^ (k - l))) with ((c * 2 ^ (k - l)) * 2 ^ l) by lia.
  apply N.mod_mul. apply N.pow_nonzero; lia.
Qed.

Lemma pow2_pos : forall k, 0 < 2 ^ k.
Proof. intros. assert (2 ^ k <> 0) by (apply N.pow_nonzero; lia). lia. Qed.

Lemma pow2_le : forall a b, a <= b -> 2 ^ a <= 2 ^ b.
Proof. intros. apply N.pow_le_mono_r; lia. Qed.

Lemma land_bitmask_id : forall a l h,
  a mod 2 ^ l = 0 -> a < 2 ^ (h + 1) -> N.land a (BIT_MASK h l) = a.
Proof.
  intros a l h Hl Hh. apply N.bits_inj. intro n.
  rewrite N.land_spec, testbit_bitmask.
  destruct (N.leb_spec l n); cbn [andb].
  - destruct (N.leb_spec n h); [apply andb_true_r|].
    rewrite (testbit_false_lt a (h + 1) n); auto. lia.
  - rewrite (testbit_low_aligned a l n); auto.
Qed.

Lemma land_bitmask_iff : forall a l h,
  l <= h + 1 ->
  (a = N.land a (BIT_MASK h l) <-> a mod 2 ^ l = 0 /\ a < 2 ^ (h + 1)).
Proof.
  intros a l h Hlh. split.
  - intro E. split.
    + apply N.bits_inj. intro n. rewrite N.bits_0.
      destruct (N.lt_ge_cases n l).
      * rewrite N.mod_pow2_bits_low by assumption.
        rewrite E, N.land_spec, testbit_bitmask.
        destruct (N.leb_spec l n); [lia|]. cbn [andb]. apply andb_false_r.
      * apply N.mod_pow2_bits_high. assumption.
    + rewrite E. destruct (N.eq_dec (N.land a (BIT_MASK h l)) 0) as [->|Hz].
      { apply pow2_pos. }
      apply N.log2_lt_pow2; [lia|].
      destruct (N.lt_ge_cases (N.log2 (N.land a (BIT_MASK h l))) (h + 1)); [assumption|].
      exfalso. pose proof (N.bit_log2 _ Hz) as B.
      rewrite N.land_spec, testbit_bitmask in B.
      apply andb_true_iff in B. destruct B as [_ B]. apply andb_true_iff in B.
      destruct B as [_ B]. apply N.leb_le in B. lia.
  - intros [H1 H2]. symmetry. apply land_bitmask_id; assumption.
Qed.

Lemma shiftr_lt : forall a k m, a < 2 ^ (k + m) -> N.shiftr a k < 2 ^ m.
Proof.
  intros a k m H. rewrite N.shiftr_div_pow2.
  apply N.div_lt_upper_bound; [apply N.pow_nonzero; lia|].
  rewrite <- N.pow_add_r. assumption.
Qed.

Lemma lor_disjoint_add : forall a b, N.land a b = 0 -> N.lor a b = a + b.
Proof.
  intros a b H. rewrite <- N.lxor_lor by assumption. symmetry. apply N.add_nocarry_lxor. assumption.
Qed.

Lemma lor_lt_pow2 : forall a b k, a < 2 ^ k -> b < 2 ^ k -> N.lor a b < 2 ^ k.
Proof.
  intros a b k Ha Hb. destruct (N.eq_dec (N.lor a b) 0) as [->|Hz]; [apply pow2_pos|].
  apply N.log2_lt_pow2; [lia|]. rewrite N.log2_lor.
  destruct (N.eq_dec a 0) as [->|Ha0], (N.eq_dec b 0) as [->|Hb0].
  - exfalso. apply Hz. reflexivity.
  - rewrite N.max_r by apply N.le_0_l. apply N.log2_lt_pow2; lia.
  - rewrite N.max_l by apply N.le_0_l. apply N.log2_lt_pow2; lia.
  - apply N.max_lub_lt; apply N.log2_lt_pow2; lia.
Qed.

Lemma lor_aligned : forall a b k, a mod 2 ^ k = 0 -> b mod 2 ^ k = 0 -> N.lor a b mod 2 ^ k = 0.
Proof.
  intros a b k Ha Hb. apply N.bits_inj. intro n. rewrite N.bits_0.
  destruct (N.lt_ge_cases n k).
  - rewrite N.mod_pow2_bits_low, N.lor_spec by assumption.
    rewrite (testbit_low_aligned a k n), (testbit_low_aligned b k n); auto.
  - apply N.mod_pow2_bits_high. assumption.
Qed.

Lemma lt_pow2_bits : forall x k, (forall n, k <= n -> N.testbit x n = false) -> x < 2 ^ k.
Proof.
  intros x k H. destruct (N.eq_dec x 0) as [->|Hz]; [apply pow2_pos|].
  apply N.log2_lt_pow2; [lia|].
  destruct (N.lt_ge_cases (N.log2 x) k) as [|Hge]; [assumption|].
  specialize (H _ Hge). rewrite (N.bit_log2 _ Hz) in H. discriminate.
Qed.
