(** The monitor's entry codec agrees with the architecture's reading of it. *)
From Coq Require Import NArith ZArith List Bool Lia ZifyBool ZifyN.
From Verif Require Import Bits S2tte S2tteFacts Arch SpecCodec.
Import ListNotations.
Local Open Scope N_scope.

Lemma testbit_bits : forall w hi lo n,
  N.testbit (bits w hi lo) n = (n <? hi - lo + 1) && N.testbit w (n + lo).
Proof.
  intros. unfold bits. destruct (N.ltb_spec n (hi - lo + 1)).
  - rewrite N.mod_pow2_bits_low, N.div_pow2_bits by lia. reflexivity.
  - apply N.mod_pow2_bits_high. lia.
Qed.

Lemma testbit_mul_pow2 : forall a k n,
  N.testbit (a * 2 ^ k) n = (k <=? n) && N.testbit a (n - k).
Proof.
  intros. destruct (N.leb_spec k n).
  - rewrite N.mul_pow2_bits_high by lia. reflexivity.
  - apply N.mul_pow2_bits_low. lia.
Qed.

Lemma arch_lsb_eq : forall l, (-1 <= l <= 3)%Z -> arch_lsb l = lvl_lsb l.
Proof.
  intros l H. assert (l = -1 \/ l = 0 \/ l = 1 \/ l = 2 \/ l = 3)%Z as C by lia.
  repeat destruct C as [->|C]; try reflexivity. subst. reflexivity.
Qed.

Lemma arch_oa_eq : forall ds w l, (0 <= l <= 3)%Z ->
  arch_oa ds (lvl_lsb l) w = s2tte_to_pa w l ds.
Proof.
  intros ds w l H. assert (L : 12 <= lvl_lsb l <= 39) by (unfold lvl_lsb; lia).
  unfold arch_oa. destruct ds.
  - rewrite <- lor_disjoint_add.
    + apply N.bits_inj. intro n. rewrite testbit_to_pa_lpa2 by lia.
      rewrite N.lor_spec, !testbit_mul_pow2, !testbit_bits.
      replace (n - lvl_lsb l + lvl_lsb l) with (if lvl_lsb l <=? n then n else lvl_lsb l)
        by (destruct (N.leb_spec (lvl_lsb l) n); lia).
      replace (n - 50 + 8) with (if 50 <=? n then n - 42 else 8)
        by (destruct (N.leb_spec 50 n); lia).
      bit_cases; rewrite ?andb_true_r, ?andb_false_r, ?orb_false_r, ?orb_true_r; try reflexivity.
    + apply N.bits_inj. intro n. rewrite N.land_spec, N.bits_0, !testbit_mul_pow2, !testbit_bits.
      bit_cases; rewrite ?andb_true_r, ?andb_false_r; reflexivity.
  - apply N.bits_inj. intro n. unfold s2tte_to_pa, s2tte_lvl_mask, S2TTE_OA_BITS.
    autorewrite with tbit. rewrite testbit_mul_pow2, testbit_bits.
    replace (n - lvl_lsb l + lvl_lsb l) with (if lvl_lsb l <=? n then n else lvl_lsb l)
      by (destruct (N.leb_spec (lvl_lsb l) n); lia).
    bit_cases; rewrite ?andb_true_r, ?andb_false_r; reflexivity.
Qed.

Lemma testbit_land_pow2 : forall w n, N.testbit w n = negb (N.land w (2 ^ n) =? 0).
Proof.
  intros w n. destruct (N.testbit w n) eqn:B.
  - destruct (N.eqb_spec (N.land w (2 ^ n)) 0) as [E|]; [|reflexivity].
    pose proof (f_equal (fun x => N.testbit x n) E) as Q. cbn beta in Q.
    rewrite N.land_spec, B, testbit_pow2, N.eqb_refl, N.bits_0 in Q. discriminate.
  - destruct (N.eqb_spec (N.land w (2 ^ n)) 0) as [|E]; [reflexivity|]. exfalso. apply E.
    apply N.bits_inj. intro k. rewrite N.land_spec, testbit_pow2, N.bits_0.
    destruct (N.eqb_spec k n); subst; rewrite ?B, ?andb_false_r; reflexivity.
Qed.

Lemma bits_land_mask : forall w hi lo, lo <= hi ->
  bits w hi lo = N.shiftr (N.land w (BIT_MASK hi lo)) lo.
Proof.
  intros w hi lo H. apply N.bits_inj. intro n. rewrite testbit_bits. autorewrite with tbit.
  bit_cases; rewrite ?andb_true_r, ?andb_false_r; reflexivity.
Qed.

Lemma enc_bit : forall lpa2 level e n, valid_entry lpa2 level e ->
  n < 2 \/ 52 <= n -> N.testbit (enc lpa2 level e) n = N.testbit (enc_const lpa2 level e) n.
Proof.
  intros lpa2 level e n V Hn. rewrite enc_norm by assumption. rewrite N.lor_spec.
  pose proof (valid_epa _ _ _ V) as P.
  assert (N.testbit (pa_to_s2tte (epa e) lpa2) n = false) as ->; [|reflexivity].
  destruct Hn.
  - pose proof (pa_to_s2tte_low _ _ (2 ^ n) P) as Q.
    assert (2 ^ n < 2 ^ 8) by (apply N.pow_lt_mono_r; lia). specialize (Q H0).
    rewrite testbit_land_pow2, Q. reflexivity.
  - apply (testbit_false_lt _ 50); [|lia]. apply pa_to_s2tte_lt. assumption.
Qed.

Lemma odd_enc : forall lpa2 level e, valid_entry lpa2 level e ->
  N.odd (enc lpa2 level e) = match e with EAsRam _ | EAsNs _ _ | ETable _ => true | _ => false end.
Proof.
  intros lpa2 level e V. rewrite <- N.bit0_odd, enc_bit by (assumption || (left; reflexivity)).
  destruct e; cbn [enc_const]; try reflexivity.
  - destruct lpa2, (level =? 3)%Z; reflexivity.
  - rewrite N.lor_spec. unfold ns_const. destruct lpa2, (level =? 3)%Z; apply orb_true_r.
Qed.

Lemma bit1_enc : forall lpa2 level e, valid_entry lpa2 level e ->
  N.testbit (enc lpa2 level e) 1 =
    match e with EAsRam _ | EAsNs _ _ => (level =? 3)%Z | ETable _ => true | _ => false end.
Proof.
  intros lpa2 level e V. rewrite enc_bit by (assumption || (left; reflexivity)).
  destruct e; cbn [enc_const]; try reflexivity.
  - destruct lpa2, (level =? 3)%Z; reflexivity.
  - rewrite N.lor_spec. destruct V as (_ & _ & A & _). rewrite <- A, N.land_spec.
    replace (N.testbit S2TTE_NS_ATTR_MASK 1) with false by reflexivity. rewrite andb_false_r.
    unfold ns_const. destruct lpa2, (level =? 3)%Z; reflexivity.
Qed.

Lemma hi_enc : forall lpa2 level e n, valid_entry lpa2 level e -> 53 <= n ->
  N.testbit (enc lpa2 level e) n =
    match e with
    | EAsNs _ _ => N.testbit S2TTE_NS_ATTR_RMM n
    | EUnNs => N.testbit S2TTE_NS n | _ => false end.
Proof.
  intros lpa2 level e n V Hn. rewrite enc_bit by (assumption || (right; lia)).
  assert (Z : forall c, c < 2 ^ 53 -> N.testbit c n = false)
    by (intros c Hc; apply (testbit_false_lt c 53); assumption).
  destruct e; cbn [enc_const]; try (apply Z; reflexivity); try reflexivity.
  - apply Z. destruct lpa2, (level =? 3)%Z; reflexivity.
  - rewrite N.lor_spec. destruct V as (_ & _ & A & _). rewrite <- A, N.land_spec.
    rewrite (Z S2TTE_NS_ATTR_MASK) by reflexivity. rewrite andb_false_r. cbn [orb]. unfold ns_const.
    unfold S2TTE_PAGE_NS, S2TTE_BLOCK_NS.
    destruct lpa2, (level =? 3)%Z; rewrite ?N.lor_spec, ?(Z S2TTE_L3_PAGE), ?(Z S2TTE_L012_BLOCK), ?(Z S2TTE_SH_IS) by reflexivity;
    rewrite ?orb_false_r; try reflexivity; rewrite ?orb_false_l; reflexivity.
Qed.

Lemma arch_decode_enc : forall lpa2 level e,
  valid_entry lpa2 level e ->
  arch_decode lpa2 level (enc lpa2 level e) =
  match e with
  | EAsRam pa => ALeaf pa false false
  | EAsNs _ pa => ALeaf pa true true
  | ETable pa => ATable pa
  | _ => AInvalid
  end.
Proof.
  intros lpa2 level e V. unfold arch_decode. rewrite odd_enc, bit1_enc by assumption.
  pose proof (pa_enc _ _ _ V) as P. unfold s2tte_pa in P. rewrite (is_table_enc _ _ _ V) in P.
  destruct e; cbn [negb]; try reflexivity.
  - assert (B : block_level level) by apply V. unfold block_level in B.
    rewrite arch_lsb_eq, arch_oa_eq, P by lia. rewrite hi_enc by (assumption || lia).
    replace (bits _ 54 53 =? 2) with false.
    2: { rewrite bits_land_mask by lia. rewrite enc_field by (assumption || reflexivity).
         cbn [enc_const]. destruct lpa2, (level =? 3)%Z; reflexivity. }
    destruct (Z.eqb_spec level 3); [reflexivity|].
    destruct (Z.leb_spec 1 level); [reflexivity|lia].
  - assert (B : block_level level) by apply V. unfold block_level in B.
    rewrite arch_lsb_eq, arch_oa_eq, P by lia. rewrite hi_enc by (assumption || lia).
    replace (bits _ 54 53 =? 2) with true.
    2: { rewrite bits_land_mask by lia. rewrite enc_field by (assumption || reflexivity).
         cbn [enc_const]. rewrite N.land_lor_distr_l.
         destruct V as (_ & _ & A & _). rewrite <- A, <- N.land_assoc.
         replace (N.land S2TTE_NS_ATTR_MASK (BIT_MASK 54 53)) with 0 by reflexivity.
         rewrite N.land_0_r. unfold ns_const. destruct lpa2, (level =? 3)%Z; reflexivity. }
    destruct (Z.eqb_spec level 3); [reflexivity|].
    destruct (Z.leb_spec 1 level); [reflexivity|lia].
  - assert (B : (level < 3)%Z) by apply V.
    destruct (Z.eqb_spec level 3); [lia|].
    change 12 with (lvl_lsb 3). rewrite arch_oa_eq by lia.
    unfold table_entry_to_phys in P. change S2TT_PAGE_LEVEL with 3%Z in P. rewrite P. reflexivity.
Qed.

Lemma recognise_enc : forall lpa2 level e k,
  valid_entry lpa2 level e -> k < 9 ->
  nth (N.to_nat k) (recognisers level (enc lpa2 level e)) false = (k =? kind e).
Proof.
  intros lpa2 level e k V Hk. unfold recognisers.
  rewrite is_unassigned_empty_enc, is_unassigned_ram_enc, is_unassigned_destroyed_enc, is_unassigned_ns_enc,
    is_assigned_empty_enc, is_assigned_ram_enc, is_assigned_destroyed_enc, is_assigned_ns_enc,
    is_table_enc by assumption.
  assert (k=0\/k=1\/k=2\/k=3\/k=4\/k=5\/k=6\/k=7\/k=8) as C by lia.
  repeat destruct C as [->|C]; try (destruct e; reflexivity). subst; destruct e; reflexivity.
Qed.

Lemma pa_enc_epa : forall lpa2 level e,
  valid_entry lpa2 level e -> 4 <= kind e ->
  s2tte_pa lpa2 (enc lpa2 level e) level = epa e.
Proof.
  intros lpa2 level e V K. pose proof (pa_enc _ _ _ V) as P.
  destruct e; cbn in K; try lia; exact P.
Qed.

Lemma ripas_enc : forall lpa2 level e,
  valid_entry lpa2 level e ->
  match e with
  | EUnEmpty | EAsEmpty _ => s2tte_get_ripas (enc lpa2 level e) = Some EMPTY
  | EUnRam | EAsRam _ => s2tte_get_ripas (enc lpa2 level e) = Some RAM
  | EUnDestr | EAsDestr _ => s2tte_get_ripas (enc lpa2 level e) = Some DESTROYED
  | _ => True
  end.
Proof.
  intros lpa2 level e V. pose proof (get_ripas_enc _ _ _ V) as P. destruct e; auto.
Qed.

Lemma host_ns_installed : forall lpa2 level h,
  block_level level -> host_ns_s2tte_is_valid lpa2 h level = true ->
  let w := s2tte_create_assigned_ns lpa2 (host_ns_s2tte lpa2 h level) level in
  arch_decode lpa2 level w = ALeaf (arch_oa lpa2 (arch_lsb level) h) true true /\
  bits w 4 2 = bits h 4 2 /\ bits w 7 6 = bits h 7 6.
Proof.
  intros lpa2 level h B H w. destruct (host_ns_decompose _ _ _ B H) as (V & E & F).
  set (attrs := N.land h S2TTE_NS_ATTR_MASK) in *. set (pa := s2tte_to_pa h level lpa2) in *.
  assert (W : w = enc lpa2 level (EAsNs attrs pa)).
  { unfold w. rewrite F. cbn [enc]. rewrite <- E. reflexivity. }
  rewrite W. split; [|].
  - rewrite arch_decode_enc by assumption. unfold block_level in B.
    rewrite arch_lsb_eq, arch_oa_eq by lia. reflexivity.
  - assert (A : forall hi lo, lo <= hi -> N.land S2TTE_NS_ATTR_MASK (BIT_MASK hi lo) = BIT_MASK hi lo ->
                bits (enc lpa2 level (EAsNs attrs pa)) hi lo = bits h hi lo).
    { intros hi lo Hl M. rewrite !bits_land_mask by assumption. f_equal.
      rewrite <- M, !N.land_assoc, enc_ns_attrs by assumption. reflexivity. }
    split; apply A; reflexivity || lia.
Qed.
