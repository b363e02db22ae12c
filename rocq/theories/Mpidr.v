(** The identity of a REC in its MPIDR *)
From Coq Require Import NArith ZArith List Bool Lia ZifyBool ZifyN.
From Verif Require Import Bits S2tte State RecFields Measure RmiRtt RmiRealm Psci RmiRec Arch Spec.
Import ListNotations.
Local Open Scope N_scope.

Lemma testbit_bits : forall w hi lo n, N.testbit (bits w hi lo) n = (n <? hi - lo + 1) && N.testbit w (n + lo).
Proof.
  intros w hi lo n. unfold bits. rewrite <- N.shiftr_div_pow2. destruct (N.ltb_spec n (hi - lo + 1)) as [L|L].
  - rewrite N.mod_pow2_bits_low by exact L. apply testbit_shiftr.
  - rewrite N.mod_pow2_bits_high by exact L. reflexivity.
Qed.
Lemma bits_same : forall v h l w h' l', h - l = h' - l' -> (forall n, n <= h - l -> N.testbit v (n + l) = N.testbit w (n + l')) -> bits v h l = bits w h' l'.
Proof.
  intros v h l w h' l' E H. apply N.bits_inj. intro n. rewrite !testbit_bits, <- E. destruct (N.ltb_spec n (h - l + 1)); [|reflexivity].
  cbn [andb]. apply H. lia.
Qed.
Lemma land_mask_bits : forall m w s, 0 < w -> N.land m (MASK w s) = bits m (s + w - 1) s * 2 ^ s.
Proof.
  intros m w s Hw. rewrite <- N.shiftl_mul_pow2. apply N.bits_inj. intro n. rewrite N.land_spec, testbit_mask, testbit_shiftl, testbit_bits.
  destruct (N.leb_spec s n) as [L|L]; cbn [andb].
  - replace (n - s + s) with n by lia. destruct (N.testbit m n); cbn [andb]; [|destruct (_ <? _); reflexivity].
    rewrite andb_true_r. apply Bool.eq_iff_eq_true. rewrite ?N.ltb_lt, ?N.leb_le. lia.
  - destruct (N.ltb_spec n s); [|lia]. rewrite ?andb_false_r. reflexivity.
Qed.
Lemma bits_lt : forall w hi lo, bits w hi lo < 2 ^ (hi - lo + 1).
Proof. intros. unfold bits. apply N.mod_lt. apply N.pow_nonzero. discriminate. Qed.

Lemma lor_add_low : forall a b k, a < 2 ^ k -> N.lor a (b * 2 ^ k) = a + b * 2 ^ k.
Proof. intros a b k H. apply lor_disjoint_add. apply (land_high a k); [exact H|]. apply N.mod_mul. apply N.pow_nonzero. discriminate. Qed.

Lemma to_idx_fields : forall m, rec_mpidr_to_idx m = host_index m.
Proof.
  intro m. unfold rec_mpidr_to_idx, host_index. rewrite !land_mask_bits by reflexivity.
  change (0 + 4 - 1) with 3. change (8 + 8 - 1) with 15. change (16 + 8 - 1) with 23. change (24 + 8 - 1) with 31.
  pose proof (bits_lt m 3 0) as B0. pose proof (bits_lt m 15 8) as B1. pose proof (bits_lt m 23 16) as B2. pose proof (bits_lt m 31 24) as B3.
  set (a := bits m 3 0) in *. set (b := bits m 15 8) in *. set (d := bits m 23 16) in *. set (e := bits m 31 24) in *. clearbody a b d e.
  change (2 ^ (3 - 0 + 1)) with 16 in B0. change (2 ^ (15 - 8 + 1)) with 256 in B1. change (2 ^ (23 - 16 + 1)) with 256 in B2. change (2 ^ (31 - 24 + 1)) with 256 in B3.
  rewrite !N.shiftr_div_pow2.
  replace (b * 2 ^ 8 / 2 ^ 4) with (b * 2 ^ 4) by (change (2 ^ 8) with 256; change (2 ^ 4) with 16; lia).
  replace (d * 2 ^ 16 / 2 ^ 4) with (d * 2 ^ 12) by (change (2 ^ 16) with 65536; change (2 ^ 4) with 16; change (2 ^ 12) with 4096; lia).
  replace (e * 2 ^ 24 / 2 ^ 4) with (e * 2 ^ 20) by (change (2 ^ 24) with 16777216; change (2 ^ 4) with 16; change (2 ^ 20) with 1048576; lia).
  replace (a * 2 ^ 0) with a by (change (2 ^ 0) with 1; lia).
  rewrite (lor_add_low a b 4) by (change (2 ^ 4) with 16; lia).
  replace (d * 2 ^ 12) with (d * 2 ^ 12) by reflexivity.
  rewrite N.lor_assoc. rewrite (lor_add_low (a + b * 2 ^ 4) d 12) by (change (2 ^ 4) with 16; change (2 ^ 12) with 4096; lia).
  rewrite (lor_add_low _ e 20) by (change (2 ^ 4) with 16; change (2 ^ 12) with 4096; change (2 ^ 20) with 1048576; lia).
  change (2 ^ 4) with 16; change (2 ^ 12) with 4096; change (2 ^ 20) with 1048576. lia.
Qed.

Lemma vmpidr_fields : forall m, realm_index (N.lor (rec_mpidr_to_mpidr m) VMPIDR_EL2_RES1) = host_index m.
Proof.
  intro m. unfold realm_index, host_index. change VMPIDR_EL2_RES1 with (2 ^ 31).
  assert (T : forall n, N.testbit (N.lor (rec_mpidr_to_mpidr m) (2 ^ 31)) n =
    (N.testbit m n && ((n <? 4) || (8 <=? n) && (n <? 24))) || ((32 <=? n) && (n <? 40) && N.testbit m (n - 8)) || (n =? 31)).
  { intro n. unfold rec_mpidr_to_mpidr. autorewrite with tbit. change (4 + 0) with 4. change (0 + 4) with 4. change (8 + 8) with 16. change (16 + 8) with 24. change (24 + 8) with 32.
    destruct (N.testbit m n), (N.testbit m (n - 8)); cbn [andb orb]; rewrite ?andb_false_r, ?andb_true_r, ?orb_false_r; cbn [andb orb]; lia. }
  f_equal; [f_equal; [f_equal|]|]; [|apply (f_equal (N.mul 16))|apply (f_equal (N.mul 4096))|apply (f_equal (N.mul (2 ^ 20)))]; apply bits_same; try reflexivity; intros n Hn; rewrite T.
  - destruct (N.testbit m (n + 0)); cbn [andb]; lia.
  - destruct (N.testbit m (n + 8)); cbn [andb]; lia.
  - destruct (N.testbit m (n + 16)); cbn [andb]; lia.
  - replace (n + 32 - 8) with (n + 24) by lia. destruct (N.testbit m (n + 24)); cbn [andb]; lia.
Qed.

Lemma valid_index_inj : forall m1 m2, rec_mpidr_is_valid m1 = true -> rec_mpidr_is_valid m2 = true -> host_index m1 = host_index m2 -> m1 = m2.
Proof.
  assert (F : forall m, rec_mpidr_is_valid m = true -> forall n, N.testbit m n = true -> (n < 4 \/ 8 <= n < 32)).
  { intros m V n T. unfold rec_mpidr_is_valid in V. apply N.eqb_eq in V.
    pose proof (f_equal (fun w => N.testbit w n) V) as K. cbv beta in K. rewrite N.ldiff_spec, N.bits_0, T in K. cbn [andb] in K.
    unfold RMI_MPIDR_MASK in K. autorewrite with tbit in K. lia. }
  intros m1 m2 V1 V2 E. unfold host_index in E.
  assert (B : bits m1 3 0 = bits m2 3 0 /\ bits m1 15 8 = bits m2 15 8 /\ bits m1 23 16 = bits m2 23 16 /\ bits m1 31 24 = bits m2 31 24).
  { pose proof (bits_lt m1 3 0). pose proof (bits_lt m1 15 8). pose proof (bits_lt m1 23 16). pose proof (bits_lt m2 3 0). pose proof (bits_lt m2 15 8). pose proof (bits_lt m2 23 16).
    repeat match goal with |- context [bits ?w ?a ?b] => let v := fresh "v" in set (v := bits w a b) in *; clearbody v end.
    change (2 ^ (3 - 0 + 1)) with 16 in *. change (2 ^ (15 - 8 + 1)) with 256 in *. change (2 ^ (23 - 16 + 1)) with 256 in *. change (2 ^ 20) with 1048576 in *. clear V1 V2 F. lia. }
  destruct B as (B0 & B1 & B2 & B3). clear E. apply N.bits_inj. intro n.
  assert (G : forall hi lo, bits m1 hi lo = bits m2 hi lo -> lo <= n -> n <= hi -> N.testbit m1 n = N.testbit m2 n).
  { intros hi lo H L1 L2. pose proof (f_equal (fun w => N.testbit w (n - lo)) H) as K. cbv beta in K. rewrite !testbit_bits in K.
    destruct (N.ltb_spec (n - lo) (hi - lo + 1)); [|lia]. cbn [andb] in K. replace (n - lo + lo) with n in K by lia. exact K. }
  destruct (N.le_gt_cases n 3); [apply (G 3 0 B0); lia|].
  destruct (N.le_gt_cases n 7).
  { destruct (N.testbit m1 n) eqn:T1; [apply (F _ V1) in T1; lia|]. destruct (N.testbit m2 n) eqn:T2; [apply (F _ V2) in T2; lia|reflexivity]. }
  destruct (N.le_gt_cases n 15); [apply (G 15 8 B1); lia|]. destruct (N.le_gt_cases n 23); [apply (G 23 16 B2); lia|].
  destruct (N.le_gt_cases n 31); [apply (G 31 24 B3); lia|].
  destruct (N.testbit m1 n) eqn:T1; [apply (F _ V1) in T1; lia|]. destruct (N.testbit m2 n) eqn:T2; [apply (F _ V2) in T2; lia|reflexivity].
Qed.
