(** Abstract stage 2 entries, their encoding into words, and the lemmas that
    let proofs about tables work with abstract entries. *)
From Coq Require Import NArith ZArith List Bool Lia ZifyBool ZifyN.
From Verif Require Import Bits S2tte.
Local Open Scope N_scope.

Inductive entry :=
| EUnEmpty | EUnRam | EUnDestr | EUnNs
| EAsEmpty (pa : N) | EAsRam (pa : N) | EAsDestr (pa : N)
| EAsNs (attrs pa : N)
| ETable (pa : N).

Definition enc (lpa2 : bool) (level : Z) (e : entry) : N :=
  match e with
  | EUnEmpty => s2tte_create_unassigned_empty
  | EUnRam => s2tte_create_unassigned_ram
  | EUnDestr => s2tte_create_unassigned_destroyed
  | EUnNs => s2tte_create_unassigned_ns
  | EAsEmpty pa => s2tte_create_assigned_empty lpa2 pa level
  | EAsRam pa => s2tte_create_assigned_ram lpa2 pa level
  | EAsDestr pa => s2tte_create_assigned_destroyed lpa2 pa level
  | EAsNs attrs pa => s2tte_create_assigned_ns lpa2 (N.lor attrs (pa_to_s2tte pa lpa2)) level
  | ETable pa => s2tte_create_table lpa2 pa
  end.

Definition oa_bits (lpa2 : bool) : N := if lpa2 then S2TTE_OA_BITS_LPA2 else S2TTE_OA_BITS.

(** [pa] is a multiple of the size mapped at [level] and fits the output address. *)
Definition pa_ok (lpa2 : bool) (level : Z) (pa : N) : Prop :=
  pa mod 2 ^ lvl_lsb level = 0 /\ pa < 2 ^ oa_bits lpa2.

Definition attrs_ok (attrs : N) : Prop :=
  N.land attrs S2TTE_NS_ATTR_MASK = attrs /\
  N.land attrs S2TTE_MEMATTR_MASK <> S2TTE_MEMATTR_FWB_RESERVED.

Definition block_level (level : Z) : Prop := (1 <= level <= 3)%Z.

Definition valid_entry (lpa2 : bool) (level : Z) (e : entry) : Prop :=
  match e with
  | EUnEmpty | EUnRam | EUnDestr | EUnNs => True
  | EAsEmpty pa | EAsRam pa | EAsDestr pa => block_level level /\ pa_ok lpa2 level pa
  | EAsNs attrs pa => block_level level /\ pa_ok lpa2 level pa /\ attrs_ok attrs
  | ETable pa => (level < 3)%Z /\ pa_ok lpa2 3 pa
  end.

Lemma block_level_cases : forall l, block_level l -> (l = 1 \/ l = 2 \/ l = 3)%Z.
Proof. unfold block_level. intros. lia. Qed.

Lemma lvl_lsb_mono : forall l l', (l <= l' <= 3)%Z -> lvl_lsb l' <= lvl_lsb l.
Proof. unfold lvl_lsb. intros. lia. Qed.

Lemma lvl_lsb_ge12 : forall l, (l <= 3)%Z -> 12 <= lvl_lsb l.
Proof. unfold lvl_lsb. intros. lia. Qed.

Lemma pa_ok_page : forall lpa2 l pa, (l <= 3)%Z -> pa_ok lpa2 l pa -> pa_ok lpa2 3 pa.
Proof.
  unfold pa_ok. intros lpa2 l pa Hl [H1 H2]. split; [|assumption].
  eapply mod_pow2_le; [|exact H1]. apply lvl_lsb_mono. lia.
Qed.

(* ------------------------------------------------------------------ *)
(** ** Bits of a word made by [pa_to_s2tte] *)

Ltac bit_cases :=
  repeat (match goal with
          | |- context [N.leb ?a ?b] => destruct (N.leb_spec a b); cbn [andb orb negb]; try lia
          | |- context [N.ltb ?a ?b] => destruct (N.ltb_spec a b); cbn [andb orb negb]; try lia
          | |- context [N.eqb ?a ?b] => destruct (N.eqb_spec a b); cbn [andb orb negb]; try lia
          end).

Lemma testbit_pa_to_s2tte : forall pa n,
  pa mod 2 ^ 12 = 0 -> pa < 2 ^ 52 ->
  N.testbit (pa_to_s2tte pa true) n =
    if (8 <=? n) && (n <? 10) then N.testbit pa (n + 42)
    else if (12 <=? n) && (n <? 50) then N.testbit pa n else false.
Proof.
  intros pa n Ha Hlt. unfold pa_to_s2tte, INPLACE, EXTRACT, LPA2_OA_51_50.
  autorewrite with tbit.
  replace (n - 8 + 50) with (if 8 <=? n then n + 42 else 50) by (destruct (N.leb_spec 8 n); lia).
  bit_cases; rewrite ?andb_true_r, ?andb_false_r, ?orb_false_r, ?orb_true_r; try reflexivity;
    try (rewrite (testbit_low_aligned pa 12 n) by (assumption || lia));
    try (rewrite (testbit_false_lt pa 52 n) by (assumption || lia)); reflexivity.
Qed.

Lemma pa_to_s2tte_low : forall lpa2 pa m,
  pa_ok lpa2 3 pa -> m < 2 ^ 8 -> N.land (pa_to_s2tte pa lpa2) m = 0.
Proof.
  intros lpa2 pa m [Ha Hlt] Hm. change (lvl_lsb 3) with 12 in Ha.
  destruct lpa2.
  - apply N.bits_inj. intro n. rewrite N.land_spec, N.bits_0.
    rewrite testbit_pa_to_s2tte by assumption.
    destruct (N.lt_ge_cases n 8).
    + bit_cases; reflexivity.
    + rewrite (testbit_false_lt m 8 n) by assumption. apply andb_false_r.
  - eapply (land_low _ 12); [exact Ha|]. eapply N.lt_trans; [exact Hm|]. reflexivity.
Qed.

Lemma pa_to_s2tte_high : forall lpa2 pa m,
  pa_ok lpa2 3 pa -> m mod 2 ^ 50 = 0 -> N.land (pa_to_s2tte pa lpa2) m = 0.
Proof.
  intros lpa2 pa m [Ha Hlt] Hm. change (lvl_lsb 3) with 12 in Ha.
  apply N.bits_inj. intro n. rewrite N.land_spec, N.bits_0.
  destruct (N.lt_ge_cases n 50).
  - rewrite (testbit_low_aligned m 50 n) by assumption. apply andb_false_r.
  - destruct lpa2.
    + rewrite testbit_pa_to_s2tte by assumption. bit_cases; reflexivity.
    + cbn in Hlt. unfold pa_to_s2tte. rewrite (testbit_false_lt pa 48 n); [reflexivity|exact Hlt|lia].
Qed.

Lemma pa_to_s2tte_lt : forall lpa2 pa, pa_ok lpa2 3 pa -> pa_to_s2tte pa lpa2 < 2 ^ 50.
Proof.
  intros lpa2 pa [Ha Hlt]. change (lvl_lsb 3) with 12 in Ha. destruct lpa2.
  - destruct (N.eq_dec (pa_to_s2tte pa true) 0) as [->|Hz]; [reflexivity|].
    apply N.log2_lt_pow2; [lia|].
    destruct (N.lt_ge_cases (N.log2 (pa_to_s2tte pa true)) 50); [assumption|].
    pose proof (N.bit_log2 _ Hz) as B. rewrite testbit_pa_to_s2tte in B by assumption.
    revert B. bit_cases; discriminate.
  - eapply N.lt_trans; [exact Hlt|]. reflexivity.
Qed.

(** Bits 0..7 and 50.. of [pa_to_s2tte pa | c] are those of [c]. *)
Lemma land_pa_lor : forall lpa2 pa c m,
  pa_ok lpa2 3 pa -> N.land m (2 ^ 50 - 2 ^ 8) = 0 ->
  N.land (N.lor (pa_to_s2tte pa lpa2) c) m = N.land c m.
Proof.
  intros lpa2 pa c m Hp Hm. rewrite N.land_lor_distr_l.
  replace (N.land (pa_to_s2tte pa lpa2) m) with 0; [apply N.lor_0_l|].
  symmetry. apply N.bits_inj. intro n. rewrite N.land_spec, N.bits_0.
  pose proof (f_equal (fun x => N.testbit x n) Hm) as B. cbn beta in B.
  replace (2 ^ 50 - 2 ^ 8) with (BIT_MASK 49 8) in B by reflexivity.
  rewrite N.land_spec, testbit_bitmask, N.bits_0 in B.
  destruct (N.leb_spec 8 n).
  - destruct (N.leb_spec n 49).
    + cbn in B. rewrite andb_true_r in B. rewrite B. apply andb_false_r.
    + rewrite (testbit_false_lt _ 50 n); [reflexivity|apply pa_to_s2tte_lt; assumption|lia].
  - pose proof (pa_to_s2tte_low lpa2 pa (2 ^ n) Hp) as L.
    assert (2 ^ n < 2 ^ 8) by (apply N.pow_lt_mono_r; lia).
    specialize (L H0). pose proof (f_equal (fun x => N.testbit x n) L) as B2. cbn beta in B2.
    rewrite N.land_spec, testbit_pow2, N.eqb_refl, N.bits_0, andb_true_r in B2.
    rewrite B2. reflexivity.
Qed.

(** ** Output address round trip *)

Lemma s2tte_to_pa_roundtrip : forall lpa2 level pa c,
  (-1 <= level <= 3)%Z -> pa_ok lpa2 level pa ->
  N.land c (2 ^ 50 - 2 ^ 12) = 0 -> (lpa2 = true -> N.land c (MASK 2 8) = 0) ->
  s2tte_to_pa (N.lor (pa_to_s2tte pa lpa2) c) level lpa2 = pa.
Proof.
  intros lpa2 level pa c Hl Hp Hc Hc2.
  pose proof (pa_ok_page lpa2 level pa ltac:(lia) Hp) as [Ha12 Hlt].
  change (lvl_lsb 3) with 12 in Ha12.
  destruct Hp as [Ha _].
  pose proof (lvl_lsb_ge12 level ltac:(lia)) as H12.
  apply N.bits_inj. intro n.
  assert (Bc : forall n, 12 <= n -> n < 50 -> N.testbit c n = false).
  { intros k K1 K2. pose proof (f_equal (fun x => N.testbit x k) Hc) as B. cbn beta in B.
    replace (2 ^ 50 - 2 ^ 12) with (BIT_MASK 49 12) in B by reflexivity.
    rewrite N.land_spec, testbit_bitmask, N.bits_0 in B.
    revert B. bit_cases. rewrite andb_true_r. auto. }
  unfold s2tte_to_pa, s2tte_lvl_mask, S2TTE_OA_BITS. destruct lpa2.
  - assert (Bc2 : forall n, 8 <= n -> n < 10 -> N.testbit c n = false).
    { intros k K1 K2. pose proof (f_equal (fun x => N.testbit x k) (Hc2 eq_refl)) as B. cbn beta in B.
      rewrite N.land_spec, testbit_mask, N.bits_0 in B. revert B. bit_cases. rewrite andb_true_r. auto. }
    unfold INPLACE, EXTRACT, LPA2_S2TTE_51_50, LPA2_OA_49_48.
    autorewrite with tbit. rewrite !testbit_pa_to_s2tte by assumption.
    destruct (N.leb_spec 52 n).
    { rewrite (testbit_false_lt pa 52 n Hlt ltac:(assumption)). bit_cases; cbn;
      rewrite ?andb_true_r, ?andb_false_r, ?orb_false_r; try reflexivity. }
    destruct (N.leb_spec 50 n).
    { replace (n - 50 + 8) with (n - 42) by lia. replace (n - 42 + 42) with n by lia.
      assert (N.testbit c (n - 42) = false) as E2 by (apply Bc2; lia). rewrite E2.
      bit_cases; rewrite ?andb_true_r, ?andb_false_r, ?orb_false_r, ?orb_false_l; try reflexivity. }
    destruct (N.ltb_spec n (lvl_lsb level)) as [Hn|Hn].
    { rewrite (testbit_low_aligned pa (lvl_lsb level) n Ha Hn).
      bit_cases; rewrite ?andb_true_r, ?andb_false_r, ?orb_false_r, ?orb_false_l; try reflexivity;
      apply Bc; lia. }
    rewrite (Bc n) by lia.
    bit_cases; rewrite ?andb_true_r, ?andb_false_r, ?orb_false_r, ?orb_false_l; try reflexivity.
  - unfold pa_to_s2tte. autorewrite with tbit. cbn in Hlt.
    destruct (N.leb_spec 48 n).
    { rewrite (testbit_false_lt pa 48 n Hlt ltac:(assumption)).
      bit_cases; rewrite ?andb_false_r; reflexivity. }
    destruct (N.ltb_spec n (lvl_lsb level)) as [Hn|Hn].
    { rewrite (testbit_low_aligned pa (lvl_lsb level) n Ha Hn).
      bit_cases; rewrite ?andb_false_r; reflexivity. }
    rewrite (Bc n) by lia. bit_cases. rewrite orb_false_r, andb_true_r. reflexivity.
Qed.

(* ------------------------------------------------------------------ *)
(** ** Normal form of the words with an output address *)

Definition ns_const (lpa2 : bool) (level : Z) : N :=
  N.lor (if lpa2 then 0 else S2TTE_SH_IS)
        (if (level =? 3)%Z then S2TTE_PAGE_NS else S2TTE_BLOCK_NS).

Lemma attrs_land : forall attrs m, attrs_ok attrs -> N.land m S2TTE_NS_ATTR_MASK = 0 -> N.land attrs m = 0.
Proof.
  intros attrs m [H _] Hm. rewrite <- H, <- N.land_assoc, (N.land_comm _ m), Hm. apply N.land_0_r.
Qed.

Lemma enc_ns_norm : forall lpa2 level attrs pa,
  pa_ok lpa2 3 pa -> attrs_ok attrs ->
  s2tte_create_assigned_ns lpa2 (N.lor attrs (pa_to_s2tte pa lpa2)) level =
  N.lor (pa_to_s2tte pa lpa2) (N.lor attrs (ns_const lpa2 level)).
Proof.
  intros lpa2 level attrs pa Hp Ha. unfold s2tte_create_assigned_ns, ns_const.
  assert (E : N.ldiff (N.lor attrs (pa_to_s2tte pa lpa2)) S2TT_DESC_TYPE_MASK =
              N.lor (pa_to_s2tte pa lpa2) attrs).
  { rewrite N.lor_comm. apply N.bits_inj. intro n. rewrite N.ldiff_spec.
    destruct (N.testbit S2TT_DESC_TYPE_MASK n) eqn:B; cbn [negb]; [|apply andb_true_r].
    rewrite andb_false_r. symmetry. rewrite N.lor_spec.
    assert (n < 2).
    { destruct (N.lt_ge_cases n 2); [assumption|].
      rewrite (testbit_false_lt S2TT_DESC_TYPE_MASK 2 n) in B; [discriminate|reflexivity|assumption]. }
    assert (A : forall x, N.land x 3 = 0 -> N.testbit x n = false).
    { intros x Hx. pose proof (f_equal (fun y => N.testbit y n) Hx) as Q. cbn beta in Q.
      rewrite N.land_spec, N.bits_0 in Q. change (N.testbit 3 n) with (N.testbit S2TT_DESC_TYPE_MASK n) in Q.
      rewrite B, andb_true_r in Q. exact Q. }
    rewrite (A attrs), (A (pa_to_s2tte pa lpa2)); [reflexivity| |].
    - apply pa_to_s2tte_low; [assumption|reflexivity].
    - apply attrs_land; [assumption|reflexivity]. }
  rewrite E. change S2TT_PAGE_LEVEL with 3%Z.
  destruct lpa2, (level =? 3)%Z; rewrite ?N.lor_0_l, <- ?N.lor_assoc; reflexivity.
Qed.

(** Every valid word is [pa_to_s2tte pa | c] for a known [c]. *)
Definition enc_const (lpa2 : bool) (level : Z) (e : entry) : N :=
  match e with
  | EUnEmpty => 0 | EUnRam => 32 | EUnDestr => 64 | EUnNs => S2TTE_NS
  | EAsEmpty _ => 4 | EAsDestr _ => 68
  | EAsRam _ => if (level =? 3)%Z then (if lpa2 then S2TTE_PAGE_LPA2 else S2TTE_PAGE)
                else (if lpa2 then S2TTE_BLOCK_LPA2 else S2TTE_BLOCK)
  | EAsNs attrs _ => N.lor attrs (ns_const lpa2 level)
  | ETable _ => 3
  end.

Definition epa (e : entry) : N :=
  match e with
  | EAsEmpty pa | EAsRam pa | EAsDestr pa | EAsNs _ pa | ETable pa => pa
  | _ => 0
  end.

Lemma pa_ok_0 : forall lpa2 level, pa_ok lpa2 level 0.
Proof. intros. split; [apply N.mod_0_l, N.pow_nonzero; lia|destruct lpa2; reflexivity]. Qed.

Lemma valid_epa : forall lpa2 level e, valid_entry lpa2 level e -> pa_ok lpa2 3 (epa e).
Proof.
  intros lpa2 level e H; destruct e; cbn in *; unfold block_level in *;
    try apply pa_ok_0; try (eapply pa_ok_page; [|apply H]; lia).
Qed.

Lemma enc_norm : forall lpa2 level e, valid_entry lpa2 level e ->
  enc lpa2 level e = N.lor (pa_to_s2tte (epa e) lpa2) (enc_const lpa2 level e).
Proof.
  intros lpa2 level e H. pose proof (valid_epa _ _ _ H) as Hp.
  destruct e; cbn [enc enc_const epa] in *.
  1-4: destruct lpa2; reflexivity.
  - unfold s2tte_create_assigned_empty, s2tte_create_assigned. cbn [N.eqb].
    change (S2TTE_INVALID_RIPAS_EMPTY =? S2TTE_INVALID_RIPAS_RAM) with false. cbn iota.
    rewrite <- N.lor_assoc. reflexivity.
  - unfold s2tte_create_assigned_ram, s2tte_create_assigned.
    change (S2TTE_INVALID_RIPAS_RAM =? S2TTE_INVALID_RIPAS_RAM) with true. cbn iota.
    change S2TT_PAGE_LEVEL with 3%Z. destruct lpa2, (level =? 3)%Z; reflexivity.
  - unfold s2tte_create_assigned_destroyed, s2tte_create_assigned.
    change (S2TTE_INVALID_RIPAS_DESTROYED =? S2TTE_INVALID_RIPAS_RAM) with false. cbn iota.
    rewrite <- N.lor_assoc. reflexivity.
  - apply enc_ns_norm; [assumption|apply H].
  - reflexivity.
Qed.

(** Low and high fields of an encoded word come from the constant part. *)
Lemma enc_field : forall lpa2 level e m, valid_entry lpa2 level e ->
  N.land m (2 ^ 50 - 2 ^ 8) = 0 ->
  N.land (enc lpa2 level e) m = N.land (enc_const lpa2 level e) m.
Proof.
  intros lpa2 level e m H Hm. rewrite enc_norm by assumption.
  apply land_pa_lor; [eapply valid_epa; eassumption|assumption].
Qed.

Lemma enc_desc : forall lpa2 level e, valid_entry lpa2 level e ->
  N.land (enc lpa2 level e) S2TT_DESC_TYPE_MASK =
  match e with
  | EAsRam _ | EAsNs _ _ => if (level =? 3)%Z then 3 else 1
  | ETable _ => 3
  | _ => 0
  end.
Proof.
  intros lpa2 level e H. rewrite enc_field by (assumption || reflexivity).
  destruct e; cbn [enc_const]; try reflexivity.
  - destruct lpa2, (level =? 3)%Z; reflexivity.
  - rewrite N.land_lor_distr_l, (attrs_land attrs) by (apply H || reflexivity).
    unfold ns_const. destruct lpa2, (level =? 3)%Z; reflexivity.
Qed.

Lemma enc_nsbit : forall lpa2 level e, valid_entry lpa2 level e ->
  N.land (enc lpa2 level e) S2TTE_NS =
  match e with EUnNs | EAsNs _ _ => S2TTE_NS | _ => 0 end.
Proof.
  intros lpa2 level e H. rewrite enc_field by (assumption || reflexivity).
  destruct e; cbn [enc_const]; try reflexivity.
  - destruct lpa2, (level =? 3)%Z; reflexivity.
  - rewrite N.land_lor_distr_l, (attrs_land attrs) by (apply H || reflexivity).
    unfold ns_const. destruct lpa2, (level =? 3)%Z; reflexivity.
Qed.

Lemma enc_hipas : forall lpa2 level e, valid_entry lpa2 level e ->
  match e with
  | EUnEmpty | EUnRam | EUnDestr | EUnNs =>
      N.land (enc lpa2 level e) S2TTE_INVALID_HIPAS_MASK = S2TTE_INVALID_HIPAS_UNASSIGNED
  | EAsEmpty _ | EAsDestr _ =>
      N.land (enc lpa2 level e) S2TTE_INVALID_HIPAS_MASK = S2TTE_INVALID_HIPAS_ASSIGNED
  | _ => True
  end.
Proof.
  intros lpa2 level e H. rewrite !enc_field by (assumption || reflexivity).
  destruct e; cbn [enc_const]; try reflexivity; exact I.
Qed.

Lemma enc_ripas : forall lpa2 level e, valid_entry lpa2 level e ->
  match e with
  | EUnEmpty | EAsEmpty _ | EUnNs =>
      N.land (enc lpa2 level e) S2TTE_INVALID_RIPAS_MASK = S2TTE_INVALID_RIPAS_EMPTY
  | EUnRam => N.land (enc lpa2 level e) S2TTE_INVALID_RIPAS_MASK = S2TTE_INVALID_RIPAS_RAM
  | EUnDestr | EAsDestr _ =>
      N.land (enc lpa2 level e) S2TTE_INVALID_RIPAS_MASK = S2TTE_INVALID_RIPAS_DESTROYED
  | _ => True
  end.
Proof.
  intros lpa2 level e H. rewrite !enc_field by (assumption || reflexivity).
  destruct e; cbn [enc_const]; try reflexivity; exact I.
Qed.

(* ------------------------------------------------------------------ *)
(** ** The predicates on encoded words *)

Ltac solve_pred H :=
  pose proof (enc_desc _ _ _ H) as D; pose proof (enc_nsbit _ _ _ H) as B;
  pose proof (enc_hipas _ _ _ H) as Hh; pose proof (enc_ripas _ _ _ H) as Hr;
  unfold s2tte_is_unassigned_empty, s2tte_is_unassigned_ram, s2tte_is_unassigned_ns,
    s2tte_is_unassigned_destroyed, s2tte_is_unassigned, s2tte_is_assigned_destroyed,
    s2tte_is_assigned_empty, s2tte_is_assigned_ram, s2tte_is_assigned_ns, s2tte_check,
    s2tte_is_table, entry_is_table, s2tte_has_ripas, s2tte_has_unassigned_ripas,
    s2tte_has_assigned_ripas, s2tte_has_hipas, s2tte_is_live, s2tte_has_pa, s2tte_is_table;
  change S2TT_PAGE_LEVEL with 3%Z in *; change S2TT_MIN_BLOCK_LEVEL with 1%Z in *;
  unfold s2tte_has_assigned_ripas, s2tte_has_hipas in *;
  rewrite ?D, ?B;
  match type of H with valid_entry _ _ ?e => destruct e end;
  cbn [valid_entry] in *; unfold block_level in *;
  rewrite ?Hh, ?Hr; try reflexivity;
  repeat match goal with
  | |- context [(?a =? ?b)%Z] => destruct (Z.eqb_spec a b)
  | |- context [(?a <=? ?b)%Z] => destruct (Z.leb_spec a b)
  | |- context [(?a <? ?b)%Z] => destruct (Z.ltb_spec a b)
  end; try lia; rewrite ?andb_false_r, ?andb_true_r; try reflexivity.

Section Preds.
Variables (lpa2 : bool) (level : Z) (e : entry).
Hypothesis V : valid_entry lpa2 level e.
Notation w := (enc lpa2 level e).

Lemma is_unassigned_empty_enc : s2tte_is_unassigned_empty w =
  match e with EUnEmpty => true | _ => false end.
Proof. solve_pred V. Qed.
Lemma is_unassigned_ram_enc : s2tte_is_unassigned_ram w =
  match e with EUnRam => true | _ => false end.
Proof. solve_pred V. Qed.
Lemma is_unassigned_destroyed_enc : s2tte_is_unassigned_destroyed w =
  match e with EUnDestr => true | _ => false end.
Proof. solve_pred V. Qed.
Lemma is_unassigned_ns_enc : s2tte_is_unassigned_ns w =
  match e with EUnNs => true | _ => false end.
Proof. solve_pred V. Qed.
Lemma is_unassigned_enc : s2tte_is_unassigned w =
  match e with EUnEmpty | EUnRam | EUnDestr | EUnNs => true | _ => false end.
Proof. solve_pred V. Qed.
Lemma is_assigned_empty_enc : s2tte_is_assigned_empty w level =
  match e with EAsEmpty _ => true | _ => false end.
Proof. solve_pred V. Qed.
Lemma is_assigned_destroyed_enc : s2tte_is_assigned_destroyed w level =
  match e with EAsDestr _ => true | _ => false end.
Proof. solve_pred V. Qed.
Lemma is_assigned_ram_enc : s2tte_is_assigned_ram w level =
  match e with EAsRam _ => true | _ => false end.
Proof. solve_pred V. Qed.
Lemma is_assigned_ns_enc : s2tte_is_assigned_ns w level =
  match e with EAsNs _ _ => true | _ => false end.
Proof. solve_pred V. Qed.
Lemma is_table_enc : s2tte_is_table w level =
  match e with ETable _ => true | _ => false end.
Proof. solve_pred V. Qed.
Lemma entry_is_table_enc : (level < 3)%Z -> entry_is_table w =
  match e with ETable _ => true | _ => false end.
Proof. intro L. solve_pred V. Qed.
Lemma has_ripas_enc : s2tte_has_ripas w level =
  match e with EUnNs | EAsNs _ _ | ETable _ => false | _ => true end.
Proof. solve_pred V. Qed.
Lemma is_live_enc : s2tte_is_live w level =
  match e with EUnEmpty | EUnRam | EUnDestr | EUnNs => false | _ => true end.
Proof.
  unfold s2tte_is_live, s2tte_has_pa. rewrite is_assigned_empty_enc, is_assigned_destroyed_enc.
  rewrite (enc_desc _ _ _ V). destruct e; try reflexivity; destruct (level =? 3)%Z; reflexivity.
Qed.

Lemma get_ripas_enc :
  match e with
  | EUnEmpty | EAsEmpty _ | EUnNs => s2tte_get_ripas w = Some EMPTY
  | EUnRam | EAsRam _ | EAsNs _ _ => s2tte_get_ripas w = Some RAM
  | EUnDestr | EAsDestr _ => s2tte_get_ripas w = Some DESTROYED
  | ETable _ => True
  end.
Proof.
  unfold s2tte_get_ripas, EXTRACT. change (MASK 3 2) with S2TTE_INVALID_HIPAS_MASK.
  pose proof (enc_desc _ _ _ V) as D.
  pose proof (enc_hipas _ _ _ V) as Hh; pose proof (enc_ripas _ _ _ V) as Hr.
  destruct e; rewrite ?D, ?Hh, ?Hr; try reflexivity; try exact I;
  destruct (level =? 3)%Z; reflexivity.
Qed.

Lemma pa_enc :
  match e with
  | EAsEmpty pa | EAsRam pa | EAsDestr pa | EAsNs _ pa | ETable pa => s2tte_pa lpa2 w level = pa
  | _ => True
  end.
Proof.
  unfold s2tte_pa. rewrite is_table_enc, enc_norm by assumption.
  unfold table_entry_to_phys. change S2TT_PAGE_LEVEL with 3%Z.
  destruct e; try exact I; cbn [epa enc_const]; cbn [valid_entry] in V;
    unfold block_level in *; apply s2tte_to_pa_roundtrip; try lia; try apply V;
    try (intros ->); try reflexivity; try (destruct lpa2, (level =? 3)%Z; reflexivity);
    try (destruct (level =? 3)%Z; reflexivity).
  - rewrite N.land_lor_distr_l, (attrs_land attrs) by (apply V || reflexivity).
    unfold ns_const. destruct lpa2, (level =? 3)%Z; reflexivity.
  - rewrite N.land_lor_distr_l, (attrs_land attrs) by (apply V || reflexivity).
    unfold ns_const. destruct (level =? 3)%Z; reflexivity.
Qed.


End Preds.

Lemma table_pa_enc : forall lpa2 level pa, valid_entry lpa2 level (ETable pa) ->
  table_entry_to_phys (enc lpa2 level (ETable pa)) lpa2 = pa.
Proof.
  intros lpa2 level pa V. pose proof (pa_enc _ _ _ V) as P. cbn beta iota in P.
  unfold s2tte_pa in P. rewrite is_table_enc in P by assumption. exact P.
Qed.

(* ------------------------------------------------------------------ *)
(** ** Further codec lemmas *)

Lemma addr_lvl_aligned_iff : forall lpa2 addr level,
  (-1 <= level <= 3)%Z ->
  s2tte_is_addr_lvl_aligned lpa2 addr level = true <-> pa_ok lpa2 level addr.
Proof.
  intros lpa2 addr level Hl. unfold s2tte_is_addr_lvl_aligned, pa_ok.
  rewrite N.eqb_eq. fold (oa_bits lpa2).
  assert (E : oa_bits lpa2 - 1 + 1 = oa_bits lpa2) by (destruct lpa2; reflexivity).
  rewrite <- E at 2. apply land_bitmask_iff. rewrite E.
  assert (lvl_lsb level <= 48) by (unfold lvl_lsb; lia).
  unfold oa_bits, S2TTE_OA_BITS, S2TTE_OA_BITS_LPA2. destruct lpa2; lia.
Qed.

Lemma enc_ns_attrs : forall lpa2 level attrs pa, valid_entry lpa2 level (EAsNs attrs pa) ->
  N.land (enc lpa2 level (EAsNs attrs pa)) S2TTE_NS_ATTR_MASK = attrs.
Proof.
  intros lpa2 level attrs pa V. rewrite enc_field by (assumption || reflexivity).
  cbn [enc_const]. rewrite N.land_lor_distr_l.
  destruct V as (_ & _ & A & _). rewrite A. unfold ns_const.
  destruct lpa2, (level =? 3)%Z; apply N.lor_0_r.
Qed.

Lemma enc_inj : forall lpa2 level e e',
  valid_entry lpa2 level e -> valid_entry lpa2 level e' ->
  enc lpa2 level e = enc lpa2 level e' -> e = e'.
Proof.
  intros lpa2 level e e' V V' E.
  pose proof (is_unassigned_empty_enc _ _ _ V) as A1; rewrite E, is_unassigned_empty_enc in A1 by assumption.
  pose proof (is_unassigned_ram_enc _ _ _ V) as A2; rewrite E, is_unassigned_ram_enc in A2 by assumption.
  pose proof (is_unassigned_destroyed_enc _ _ _ V) as A3; rewrite E, is_unassigned_destroyed_enc in A3 by assumption.
  pose proof (is_unassigned_ns_enc _ _ _ V) as A4; rewrite E, is_unassigned_ns_enc in A4 by assumption.
  pose proof (is_assigned_empty_enc _ _ _ V) as A5; rewrite E, is_assigned_empty_enc in A5 by assumption.
  pose proof (is_assigned_ram_enc _ _ _ V) as A6; rewrite E, is_assigned_ram_enc in A6 by assumption.
  pose proof (is_assigned_destroyed_enc _ _ _ V) as A7; rewrite E, is_assigned_destroyed_enc in A7 by assumption.
  pose proof (is_assigned_ns_enc _ _ _ V) as A8; rewrite E, is_assigned_ns_enc in A8 by assumption.
  pose proof (is_table_enc _ _ _ V) as A9; rewrite E, is_table_enc in A9 by assumption.
  pose proof (pa_enc _ _ _ V) as P. pose proof (pa_enc _ _ _ V') as P'.
  destruct e, e'; try discriminate; try reflexivity;
    rewrite E, P' in P; rewrite <- P in *; try reflexivity.
  pose proof (enc_ns_attrs _ _ _ _ V) as Q. rewrite E, (enc_ns_attrs _ _ _ _ V') in Q. rewrite Q. reflexivity.
Qed.

Lemma enc_lt64 : forall lpa2 level e, valid_entry lpa2 level e -> enc lpa2 level e < 2 ^ 64.
Proof.
  intros lpa2 level e V. rewrite enc_norm by assumption. apply lor_lt_pow2.
  - eapply N.lt_trans; [apply pa_to_s2tte_lt; eapply valid_epa; eassumption|reflexivity].
  - destruct e; cbn [enc_const]; try reflexivity.
    + destruct lpa2, (level =? 3)%Z; reflexivity.
    + destruct V as (_ & _ & A & _). rewrite <- A. apply lor_lt_pow2.
      * eapply N.le_lt_trans; [|exact (eq_refl : 255 < 2 ^ 64)].
        assert (N.land attrs S2TTE_NS_ATTR_MASK < 2 ^ 8); [|lia].
        destruct (N.eq_dec (N.land attrs S2TTE_NS_ATTR_MASK) 0) as [->|Hz]; [reflexivity|].
        apply N.log2_lt_pow2; [lia|].
        destruct (N.lt_ge_cases (N.log2 (N.land attrs S2TTE_NS_ATTR_MASK)) 8); [assumption|].
        pose proof (N.bit_log2 _ Hz) as B. rewrite N.land_spec in B.
        apply andb_true_iff in B. destruct B as [_ B].
        rewrite (testbit_false_lt S2TTE_NS_ATTR_MASK 8) in B; [discriminate|reflexivity|assumption].
      * unfold ns_const. destruct lpa2, (level =? 3)%Z; reflexivity.
Qed.

(** A descriptor accepted from the host is attributes plus an aligned address. *)
Lemma testbit_to_pa_lpa2 : forall w level n, (-1 <= level <= 3)%Z ->
  N.testbit (s2tte_to_pa w level true) n =
    if (50 <=? n) && (n <? 52) then N.testbit w (n - 42)
    else if (48 <=? n) && (n <? 50) then N.testbit w n
    else if (lvl_lsb level <=? n) && (n <? 48) then N.testbit w n else false.
Proof.
  intros w level n Hl. pose proof (lvl_lsb_ge12 level ltac:(lia)).
  unfold s2tte_to_pa, s2tte_lvl_mask, INPLACE, EXTRACT, LPA2_S2TTE_51_50, LPA2_OA_49_48, S2TTE_OA_BITS.
  autorewrite with tbit.
  replace (n - 50 + 8) with (if 50 <=? n then n - 42 else 8) by (destruct (N.leb_spec 50 n); lia).
  bit_cases; rewrite ?andb_true_r, ?andb_false_r, ?orb_false_r, ?orb_true_r; try reflexivity.
Qed.

Lemma to_pa_ok : forall lpa2 w level, (0 <= level <= 3)%Z -> pa_ok lpa2 level (s2tte_to_pa w level lpa2).
Proof.
  intros lpa2 w level Hl. assert (L : 12 <= lvl_lsb level <= 39) by (unfold lvl_lsb; lia).
  destruct lpa2.
  - split.
    + apply N.bits_inj. intro n. rewrite N.bits_0.
      destruct (N.lt_ge_cases n (lvl_lsb level)).
      * rewrite N.mod_pow2_bits_low, testbit_to_pa_lpa2 by lia. bit_cases; reflexivity.
      * apply N.mod_pow2_bits_high. assumption.
    + apply lt_pow2_bits. intros n Hn. change (oa_bits true) with 52 in Hn.
      rewrite testbit_to_pa_lpa2 by lia. bit_cases; reflexivity.
  - unfold s2tte_to_pa, s2tte_lvl_mask, pa_ok, oa_bits, S2TTE_OA_BITS.
    assert (E : N.land w (BIT_MASK (48 - 1) (lvl_lsb level)) =
                N.land (N.land w (BIT_MASK (48 - 1) (lvl_lsb level))) (BIT_MASK (48 - 1) (lvl_lsb level)))
      by (rewrite <- N.land_assoc, N.land_diag; reflexivity).
    apply land_bitmask_iff in E; [|lia]. exact E.
Qed.

Lemma testbit_ldiff0 : forall a m n, N.ldiff a m = 0 -> N.testbit m n = false -> N.testbit a n = false.
Proof.
  intros a m n H B. pose proof (f_equal (fun x => N.testbit x n) H) as Q. cbn beta in Q.
  rewrite N.ldiff_spec, B, N.bits_0, andb_true_r in Q. exact Q.
Qed.

Lemma ns_attr_bits : forall n, N.testbit S2TTE_NS_ATTR_MASK n = true -> 2 <= n < 8.
Proof.
  intros n H. destruct (N.lt_ge_cases n 8).
  - split; [|assumption]. destruct (N.eq_dec n 0) as [->|]; [discriminate|].
    destruct (N.eq_dec n 1) as [->|]; [discriminate|]. lia.
  - rewrite (testbit_false_lt S2TTE_NS_ATTR_MASK 8) in H; [discriminate|reflexivity|assumption].
Qed.

Lemma host_ns_decompose : forall lpa2 h level,
  block_level level -> host_ns_s2tte_is_valid lpa2 h level = true ->
  let attrs := N.land h S2TTE_NS_ATTR_MASK in
  let pa := s2tte_to_pa h level lpa2 in
  valid_entry lpa2 level (EAsNs attrs pa) /\ h = N.lor attrs (pa_to_s2tte pa lpa2) /\
  host_ns_s2tte lpa2 h level = h.
Proof.
  intros lpa2 h level Hl H attrs pa.
  assert (Hl' : (0 <= level <= 3)%Z) by (unfold block_level in Hl; lia).
  assert (L : 12 <= lvl_lsb level <= 30) by (unfold lvl_lsb; unfold block_level in Hl; lia).
  unfold host_ns_s2tte_is_valid in H.
  destruct (N.eqb_spec (N.ldiff h (N.lor (s2tte_lvl_mask level lpa2) S2TTE_NS_ATTR_MASK)) 0) as [H0|]; [|discriminate].
  cbn [negb] in H. apply negb_true_iff, N.eqb_neq in H.
  assert (Pok : pa_ok lpa2 level pa) by (apply to_pa_ok; assumption).
  assert (Hland : N.land h (N.lor (s2tte_lvl_mask level lpa2) S2TTE_NS_ATTR_MASK) = h).
  { apply N.bits_inj. intro n. rewrite N.land_spec.
    destruct (N.testbit (N.lor (s2tte_lvl_mask level lpa2) S2TTE_NS_ATTR_MASK) n) eqn:B.
    - apply andb_true_r.
    - rewrite (testbit_ldiff0 _ _ _ H0 B). reflexivity. }
  split; [|split].
  - cbn. split; [assumption|split; [assumption|]]. split.
    + unfold attrs. rewrite <- N.land_assoc, N.land_diag. reflexivity.
    + unfold attrs. rewrite <- N.land_assoc.
      change (N.land S2TTE_NS_ATTR_MASK S2TTE_MEMATTR_MASK) with S2TTE_MEMATTR_MASK. exact H.
  - apply N.bits_inj. intro n. rewrite N.lor_spec. unfold attrs. rewrite N.land_spec.
    assert (Z : N.testbit (N.lor (s2tte_lvl_mask level lpa2) S2TTE_NS_ATTR_MASK) n = false -> N.testbit h n = false)
      by (apply testbit_ldiff0; assumption).
    rewrite N.lor_spec in Z.
    destruct (N.testbit S2TTE_NS_ATTR_MASK n) eqn:A.
    + apply ns_attr_bits in A. rewrite andb_true_r.
      assert (N.testbit (pa_to_s2tte pa lpa2) n = false) as ->; [|symmetry; apply orb_false_r].
      pose proof (pa_ok_page lpa2 level pa ltac:(lia) Pok) as Pok3.
      pose proof (pa_to_s2tte_low _ _ (2 ^ n) Pok3) as Q.
      assert (2 ^ n < 2 ^ 8) by (apply N.pow_lt_mono_r; lia). specialize (Q H1).
      pose proof (f_equal (fun x => N.testbit x n) Q) as Q2. cbn beta in Q2.
      rewrite N.land_spec, testbit_pow2, N.eqb_refl, N.bits_0, andb_true_r in Q2. exact Q2.
    + rewrite andb_false_r. cbn [orb]. rewrite orb_false_r in Z.
      unfold s2tte_lvl_mask in Z. destruct lpa2.
      * pose proof (pa_ok_page true level pa ltac:(lia) Pok) as [P1 P2].
        rewrite testbit_pa_to_s2tte by (exact P1 || exact P2).
        unfold pa. rewrite !testbit_to_pa_lpa2 by lia.
        replace (n + 42 - 42) with n by lia.
        unfold LPA2_S2TTE_51_50, LPA2_OA_49_48, S2TTE_OA_BITS in Z. autorewrite with tbit in Z.
        revert Z. bit_cases; intro Z; try reflexivity; apply Z; reflexivity.
      * unfold pa_to_s2tte, pa, s2tte_to_pa, s2tte_lvl_mask, S2TTE_OA_BITS in *.
        autorewrite with tbit in *. revert Z. bit_cases; intro Z;
          rewrite ?andb_true_r, ?andb_false_r; try reflexivity; apply Z; reflexivity.
  - unfold host_ns_s2tte. exact Hland.
Qed.

(** Rewriting the level of a non-secure entry (RTT_FOLD of a table of
    non-secure pages into a block). *)
Lemma create_assigned_ns_refold : forall lpa2 l l' attrs pa,
  pa_ok lpa2 3 pa -> attrs_ok attrs -> (l' <> 3)%Z ->
  s2tte_create_assigned_ns lpa2 (enc lpa2 l (EAsNs attrs pa)) l' = enc lpa2 l' (EAsNs attrs pa) .
Proof.
  intros lpa2 l l' attrs pa Hp Ha Hl'. cbn [enc]. rewrite !enc_ns_norm by assumption.
  unfold s2tte_create_assigned_ns. change S2TT_PAGE_LEVEL with 3%Z.
  destruct (Z.eqb_spec l' 3); [contradiction|].
  assert (A : forall c, N.ldiff (N.lor (pa_to_s2tte pa lpa2) (N.lor attrs c)) 3 =
                N.lor (pa_to_s2tte pa lpa2) (N.lor attrs (N.ldiff c 3))).
  { intro c. apply N.bits_inj. intro k. autorewrite with tbit.
    destruct (N.testbit 3 k) eqn:B; cbn [negb]; rewrite ?andb_true_r, ?andb_false_r; [|reflexivity].
    assert (A : forall x, N.land x 3 = 0 -> N.testbit x k = false).
    { intros x Hx. pose proof (f_equal (fun y => N.testbit y k) Hx) as Q. cbn beta in Q.
      rewrite N.land_spec, N.bits_0, B, andb_true_r in Q. exact Q. }
    rewrite (A attrs), (A (pa_to_s2tte pa lpa2)); [reflexivity| |].
    - apply pa_to_s2tte_low; [assumption|reflexivity].
    - apply attrs_land; [assumption|reflexivity]. }
  change S2TT_DESC_TYPE_MASK with 3. rewrite A. unfold ns_const.
  destruct (Z.eqb_spec l' 3); [contradiction|].
  destruct lpa2, (l =? 3)%Z; rewrite <- ?N.lor_assoc; reflexivity.
Qed.

Lemma land_ns_attr_lor : forall attrs, attrs_ok attrs -> N.land attrs S2TTE_NS_ATTR_MASK = attrs.
Proof. intros attrs [H _]. exact H. Qed.

Lemma create_assigned_unchanged_enc : forall lpa2 l e pa,
  match e with
  | EUnEmpty => s2tte_create_assigned_unchanged lpa2 (enc lpa2 l e) pa l = enc lpa2 l (EAsEmpty pa)
  | EUnRam => s2tte_create_assigned_unchanged lpa2 (enc lpa2 l e) pa l = enc lpa2 l (EAsRam pa)
  | EUnDestr => s2tte_create_assigned_unchanged lpa2 (enc lpa2 l e) pa l = enc lpa2 l (EAsDestr pa)
  | _ => True
  end.
Proof. intros. destruct e; try exact I; reflexivity. Qed.
