(** Stage 1 descriptors: what xlat_desc encodes is what the architecture decodes. *)
From Coq Require Import NArith ZArith List Bool Lia ZifyBool ZifyN ZifyNat.
From Verif Require Import Bits Xlat SpecXlat.
Import ListNotations.
Local Open Scope N_scope.

Lemma div_mod_testbit : forall a s w n, N.testbit (a / 2 ^ s mod 2 ^ w) n = (n <? w) && N.testbit a (n + s).
Proof.
  intros. destruct (N.ltb_spec n w).
  - rewrite N.mod_pow2_bits_low by assumption. rewrite N.div_pow2_bits. reflexivity.
  - apply N.mod_pow2_bits_high. assumption.
Qed.

Lemma mul_testbit : forall a s n, N.testbit (a * 2 ^ s) n = (s <=? n) && N.testbit a (n - s).
Proof. intros. rewrite <- N.shiftl_mul_pow2. apply testbit_shiftl. Qed.

Lemma field_land : forall a s w, a / 2 ^ s mod 2 ^ w * 2 ^ s = N.land a (MASK w s).
Proof.
  intros. apply N.bits_inj. intro n. rewrite mul_testbit, div_mod_testbit, N.land_spec, testbit_mask.
  destruct (N.leb_spec s n); cbn [andb]; [|rewrite andb_false_r; reflexivity].
  replace (n - s + s) with n by lia. rewrite andb_comm. f_equal.
  destruct (N.ltb_spec (n - s) w), (N.ltb_spec n (s + w)); reflexivity || lia.
Qed.

Lemma mask_bitmask : forall w s, 0 < w -> MASK w s = BIT_MASK (s + w - 1) s.
Proof. intros. unfold MASK, BIT_MASK. do 2 f_equal. lia. Qed.

Lemma field_lt : forall a w s, N.land a (MASK w s) < 2 ^ (s + w).
Proof.
  intros. apply lt_pow2_bits. intros n Hn. rewrite N.land_spec, testbit_mask.
  destruct (N.ltb_spec n (s + w)); [lia|]. rewrite !andb_false_r. reflexivity.
Qed.
Lemma field_aligned : forall a w s, N.land a (MASK w s) mod 2 ^ s = 0.
Proof.
  intros. apply N.bits_inj. intro n. rewrite N.bits_0. destruct (N.lt_ge_cases n s).
  - rewrite N.mod_pow2_bits_low, N.land_spec, testbit_mask by assumption.
    destruct (N.leb_spec s n); [lia|]. apply andb_false_r.
  - apply N.mod_pow2_bits_high. assumption.
Qed.

Lemma desc_addr_get_oa : forall A d, desc_addr (xa_lpa2 A) d = get_oa A d.
Proof.
  intros A d. unfold desc_addr, get_oa. destruct (xa_lpa2 A).
  - rewrite field_land. change 4 with (2 ^ 2). rewrite mask_bitmask by reflexivity. change (12 + 38 - 1) with 49.
    rewrite lor_disjoint_add.
    + f_equal. unfold INPLACE, EXTRACT. apply N.bits_inj. intro n.
      rewrite mul_testbit, div_mod_testbit. autorewrite with tbit.
      destruct (N.leb_spec 50 n); cbn [andb]; [|reflexivity].
      destruct (N.ltb_spec (n - 50) 2), (N.leb_spec 8 (n - 50 + 8)), (N.ltb_spec (n - 50 + 8) (8 + 2)), (N.ltb_spec n (50 + 2));
        cbn [andb]; rewrite ?andb_false_r, ?andb_true_r; reflexivity || lia.
    + apply land_high with 50.
      * exact (field_lt d 38 12).
      * unfold INPLACE. apply field_aligned.
  - rewrite field_land. rewrite mask_bitmask by reflexivity. reflexivity.
Qed.

Definition pa_limit (A : xarch) : N := if xa_lpa2 A then 2 ^ 52 else 2 ^ 48.

Lemma pa_limit_48 : forall A, 2 ^ 48 <= pa_limit A.
Proof. intro A. unfold pa_limit. destruct (xa_lpa2 A); apply pow2_le; lia. Qed.

(** A word [f] without bits in the address field does not disturb the address *)
Definition oa_bits (A : xarch) : N :=
  if xa_lpa2 A then N.lor (BIT_MASK 49 12) (BIT_MASK 9 8) else BIT_MASK 47 12.

Lemma get_oa_lor : forall A x f, N.land f (oa_bits A) = 0 -> get_oa A (N.lor x f) = get_oa A x.
Proof.
  intros A x f H.
  assert (B : forall n, N.testbit (oa_bits A) n = true -> N.testbit f n = false).
  { intros n Hn. assert (E := f_equal (fun z => N.testbit z n) H). cbv beta in E.
    rewrite N.land_spec, N.bits_0, Hn, andb_true_r in E. exact E. }
  unfold get_oa. unfold oa_bits in B. destruct (xa_lpa2 A).
  - f_equal.
    + apply N.bits_inj. intro n. specialize (B n). autorewrite with tbit in *.
      destruct (N.leb_spec 12 n), (N.leb_spec n 49); cbn [andb orb] in *; rewrite ?andb_false_r; try reflexivity.
      rewrite (B eq_refl). rewrite orb_false_r. reflexivity.
    + f_equal. unfold EXTRACT. f_equal. apply N.bits_inj. intro n. specialize (B n). autorewrite with tbit in *.
      destruct (N.leb_spec 8 n), (N.ltb_spec n (8 + 2)); cbn [andb orb]; rewrite ?andb_false_r; try reflexivity.
      rewrite B, orb_false_r; [reflexivity|].
      destruct (N.leb_spec 8 n), (N.leb_spec n 9); lia.
  - apply N.bits_inj. intro n. specialize (B n). autorewrite with tbit in *.
    destruct (N.leb_spec 12 n), (N.leb_spec n 47); cbn [andb orb] in *; rewrite ?andb_false_r; try reflexivity.
    rewrite (B eq_refl). rewrite orb_false_r. reflexivity.
Qed.

Lemma get_set_oa : forall A pa, pa mod 4096 = 0 -> pa < pa_limit A -> get_oa A (set_oa A pa) = pa.
Proof.
  intros A pa Ha Hl. unfold get_oa, set_oa, pa_limit in *. change 4096 with (2 ^ 12) in Ha. destruct (xa_lpa2 A).
  - apply N.bits_inj. intro n. unfold INPLACE, EXTRACT. autorewrite with tbit.
    destruct (N.lt_ge_cases n 12); [|destruct (N.lt_ge_cases n 50); [|destruct (N.lt_ge_cases n 52)]].
    + rewrite (testbit_low_aligned pa 12 n Ha) by assumption.
      destruct (N.leb_spec 12 n), (N.leb_spec 50 n); try lia; rewrite ?andb_false_r; reflexivity.
    + destruct (N.leb_spec 12 n), (N.leb_spec n 49), (N.leb_spec 50 n), (N.leb_spec 8 n), (N.ltb_spec n (8 + 2)); try lia;
        cbn [andb orb]; rewrite ?andb_false_r, ?andb_true_r, ?orb_false_r; reflexivity.
    + replace (n - 50 + 8 - 8 + 50) with n by lia.
      destruct (N.leb_spec 12 n), (N.leb_spec n 49), (N.leb_spec 50 n), (N.leb_spec 12 (n - 50 + 8)), (N.leb_spec 8 (n - 50 + 8)),
        (N.ltb_spec (n - 50 + 8) (8 + 2)), (N.ltb_spec n (50 + 2)); try lia;
        cbn [andb orb]; rewrite ?andb_false_r, ?andb_true_r, ?orb_false_r, ?orb_false_l; reflexivity.
    + rewrite (testbit_false_lt pa 52 n Hl) by assumption.
      destruct (N.leb_spec n 49), (N.ltb_spec n (50 + 2)); try lia; rewrite ?andb_false_r; reflexivity.
  - rewrite land_bitmask_id; [apply land_bitmask_id; assumption| |].
    + rewrite land_bitmask_id by assumption. assumption.
    + rewrite land_bitmask_id by assumption. assumption.
Qed.

Lemma table_desc : forall A t, t mod 4096 = 0 -> t < 2 ^ 48 ->
  get_oa A (N.lor TABLE_DESC t) = t /\ N.land (N.lor TABLE_DESC t) DESC_MASK = 3.
Proof.
  intros A t Ha Hl. split.
  - rewrite N.lor_comm, get_oa_lor.
    + unfold get_oa. change 4096 with (2 ^ 12) in Ha. destruct (xa_lpa2 A).
      * rewrite land_bitmask_id; [|assumption|eapply N.lt_trans; [exact Hl|reflexivity]].
        unfold EXTRACT. rewrite (land_low t 12) by (assumption || reflexivity).
        cbn. apply N.lor_0_r.
      * apply land_bitmask_id; assumption.
    + unfold oa_bits. destruct (xa_lpa2 A); reflexivity.
  - rewrite N.land_lor_distr_l. change 4096 with (2 ^ 12) in Ha.
    rewrite (land_low t 12 DESC_MASK) by (assumption || reflexivity). reflexivity.
Qed.

Lemma has_bit : forall a k, has a (2 ^ k) = N.testbit a k.
Proof.
  intros. unfold has. destruct (N.testbit a k) eqn:E.
  - destruct (N.eqb_spec (N.land a (2 ^ k)) 0) as [H|]; [|reflexivity].
    assert (F := f_equal (fun z => N.testbit z k) H). cbv beta in F.
    rewrite N.land_spec, testbit_pow2, N.eqb_refl, E, N.bits_0 in F. discriminate.
  - replace (N.land a (2 ^ k)) with 0; [reflexivity|]. symmetry. apply N.bits_inj. intro n.
    rewrite N.land_spec, testbit_pow2, N.bits_0. destruct (N.eqb_spec n k) as [->|]; [rewrite E|rewrite andb_false_r]; reflexivity.
Qed.

Lemma mt_type_mod : forall a, MT_TYPE a = a mod 16.
Proof. intro a. unfold MT_TYPE, MASK. rewrite N.shiftl_0_r. change 16 with (2 ^ 4). apply N.land_ones. Qed.

(** The descriptor without its address *)
Definition desc_flags (lpa2 : bool) (page dev ns rw xn ng eu au : bool) : N :=
  fold_right N.lor 0
    [if page then 3 else 1; 2 ^ 10; if ns then 2 ^ 5 else 0; if rw then 0 else 2 ^ 7; if ng then 2 ^ 11 else 0;
     if eu then 0 else 2 ^ 54; if au then 2 ^ 6 else 0;
     if dev then N.lor (2 ^ 2) (2 ^ 53) else if rw || xn then 2 ^ 53 else 2 ^ 50;
     if dev || lpa2 then 0 else 2 ^ 8 + 2 ^ 9].

Lemma xlat_desc_flags : forall A attr pa h d,
  xlat_desc A attr pa h = Some d -> transient (mkMm 0 0 0 attr 0) = false ->
  N.land pa (block_mask h) = 0 /\
  d = N.lor (set_oa A pa)
        (desc_flags (xa_lpa2 A) (Nat.eqb h 0) (attr mod 16 =? 0) (N.testbit attr 8) (N.testbit attr 4) (N.testbit attr 5)
           (N.testbit attr 7) (N.testbit attr 10) (N.testbit attr 9)).
Proof.
  intros A attr pa h d H T. unfold transient in T. cbn [mm_attr] in T.
  unfold xlat_desc in H. rewrite T in H.
  destruct (N.eqb_spec (N.land pa (block_mask h)) 0) as [P|]; cbn [negb] in H; [|discriminate].
  split; [exact P|].
  assert (N8 : (N.land attr MT_NS =? 0) = negb (N.testbit attr 8)).
  { unfold MT_NS. rewrite <- has_bit. unfold has. rewrite negb_involutive. reflexivity. }
  rewrite N8 in H. unfold MT_RW, MT_NG, MT_EXEC_UNPRIV, MT_AP_UNPRIV, MT_EXECUTE_NEVER in H. rewrite !has_bit, !mt_type_mod in H.
  unfold MT_DEVICE, MT_MEMORY in H.
  destruct (attr mod 16 =? 0).
  - injection H as <-. unfold desc_flags.
    destruct (Nat.eqb h 0), (N.testbit attr 8), (N.testbit attr 4), (N.testbit attr 7), (N.testbit attr 10), (N.testbit attr 9);
      cbn [negb fold_right orb]; rewrite <- !N.lor_assoc; f_equal; reflexivity.
  - destruct (attr mod 16 =? 2); cbn [negb] in H; [|discriminate]. injection H as <-. unfold desc_flags.
    destruct (xa_lpa2 A), (Nat.eqb h 0), (N.testbit attr 8), (N.testbit attr 4), (N.testbit attr 5), (N.testbit attr 7), (N.testbit attr 10),
      (N.testbit attr 9);
      cbn [negb fold_right orb]; rewrite <- !N.lor_assoc; f_equal; reflexivity.
Qed.

Lemma set_oa_low : forall A pa n, n < 8 \/ n = 10 \/ n = 11 \/ 50 <= n -> N.testbit (set_oa A pa) n = false.
Proof.
  intros A pa n H. unfold set_oa, INPLACE, EXTRACT. destruct (xa_lpa2 A); autorewrite with tbit.
  - assert (H1 : (12 <=? n) && (n <=? 49) = false) by lia.
    assert (H2 : (8 <=? n) && (n <? 8 + 2) = false) by lia.
    rewrite H1, H2, !andb_false_r. reflexivity.
  - assert (H1 : (12 <=? n) && (n <=? 47) = false) by lia. rewrite H1, andb_false_r. reflexivity.
Qed.

Definition both (f : bool -> bool) : bool := f true && f false.
Lemma both_spec : forall f, both f = true -> forall b, f b = true.
Proof. intros f H b. unfold both in H. apply andb_prop in H. destruct b; apply H. Qed.

(** The flags decode to the attributes and have no bit in the address field *)
Definition flags_good (lpa2 page dev ns rw xn ng eu au tr : bool) : bool :=
  let g := N.lor (desc_flags lpa2 page dev ns rw xn ng eu au) (if tr then TRANSIENT_DESC else 0) in
  (N.land g (oa_bits (mkXarch lpa2 0)) =? 0) && N.testbit g 0 && eqb (N.testbit g 1) page && N.testbit g 10
  && eqb (negb (N.testbit g 7)) rw && eqb (N.testbit g 6) au
  && eqb (negb (N.testbit g 53)) (negb dev && negb rw && negb xn) && eqb (negb (N.testbit g 54)) eu
  && eqb (N.testbit g 5) ns && eqb (g / 4 mod 8 =? 1) dev && eqb (negb (N.testbit g 11)) (negb ng)
  && eqb (N.testbit g 55) tr.

Lemma flags_all : both (fun a => both (fun b => both (fun c => both (fun d => both (fun e => both (fun f => both (fun g =>
  both (fun h => both (fun i => both (fun j => flags_good a b c d e f g h i j)))))))))) = true.
Proof. vm_compute. reflexivity. Qed.

Lemma flags_ok : forall a b c d e f g h i j, flags_good a b c d e f g h i j = true.
Proof.
  intros a b c d e f g h i j. pose proof flags_all as H.
  apply both_spec with (b := a) in H. apply both_spec with (b := b) in H. apply both_spec with (b := c) in H.
  apply both_spec with (b := d) in H. apply both_spec with (b := e) in H. apply both_spec with (b := f) in H.
  apply both_spec with (b := g) in H. apply both_spec with (b := h) in H. apply both_spec with (b := i) in H.
  apply both_spec with (b := j) in H. exact H.
Qed.

(** Everything the architecture reads from a descriptor of [xlat_desc], as it is or
    marked as transient *)
Lemma leaf_decode : forall A attr pa h d e,
  xlat_desc A attr pa h = Some d -> (MT_TYPE attr =? MT_TRANSIENT) = false -> pa mod 4096 = 0 -> pa < pa_limit A ->
  e = 0 \/ e = TRANSIENT_DESC ->
  get_oa A (N.lor d e) = pa /\ N.testbit (N.lor d e) 0 = true /\ N.testbit (N.lor d e) 1 = Nat.eqb h 0 /\
  N.testbit (N.lor d e) 10 = true /\ perm_of_desc (N.lor d e) = perm_of_attr attr /\
  N.testbit (N.lor d e) 55 = negb (e =? 0).
Proof.
  intros A attr pa h d e H T Ha Hl He.
  destruct (xlat_desc_flags A attr pa h d H T) as [_ ->]. clear H T.
  assert (E : e = if negb (e =? 0) then TRANSIENT_DESC else 0) by (destruct He as [-> | ->]; reflexivity).
  rewrite E at 1 2 3 4 5 6. rewrite <- N.lor_assoc.
  assert (Z : forall g n, n < 8 \/ n = 10 \/ n = 11 \/ 50 <= n -> N.testbit (N.lor (set_oa A pa) g) n = N.testbit g n).
  { intros g n Hn. rewrite N.lor_spec, set_oa_low by exact Hn. reflexivity. }
  assert (I : forall g, N.lor (set_oa A pa) g / 4 mod 8 = g / 4 mod 8).
  { intro g. change 4 with (2 ^ 2). change 8 with (2 ^ 3). apply N.bits_inj. intro n. rewrite !div_mod_testbit.
    destruct (N.ltb_spec n 3); cbn [andb]; [|reflexivity]. apply Z. left. lia. }
  assert (G : forall g, N.land g (oa_bits A) = 0 -> get_oa A (N.lor (set_oa A pa) g) = pa).
  { intros g Hg. rewrite get_oa_lor by exact Hg. apply get_set_oa; assumption. }
  unfold perm_of_desc, perm_of_attr. rewrite !Z by lia. rewrite I.
  pose proof (flags_ok (xa_lpa2 A) (Nat.eqb h 0) (attr mod 16 =? 0) (N.testbit attr 8) (N.testbit attr 4) (N.testbit attr 5)
                (N.testbit attr 7) (N.testbit attr 10) (N.testbit attr 9) (negb (e =? 0))) as F.
  unfold flags_good in F. cbv zeta in F.
  set (g := N.lor (desc_flags _ _ _ _ _ _ _ _ _) _) in *. clearbody g.
  repeat (apply andb_prop in F; let K := fresh "K" in destruct F as [F K]).
  repeat match goal with K : eqb _ _ = true |- _ => apply eqb_prop in K end.
  apply N.eqb_eq in F. rewrite G by exact F.
  repeat split; try assumption. f_equal; assumption.
Qed.
