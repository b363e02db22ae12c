(** The walk of the MMU from the registers of a REC reaches the entry that
    translates the page *)
From Coq Require Import NArith ZArith List Bool Lia ZifyBool ZifyN.
From Verif Require Import Bits S2tte S2tteFacts Arch SpecCodec ArchFacts State Granule Wp RecFields Measure RmiRtt RmiRealm Psci RmiRec
  Gic Esr Rsi RecRun Mmu Machine Inv InvTree.
Import ListNotations.
Local Open Scope N_scope.

(** Assumption on the root tables of a realm: they are aligned to their total
    size, and to where VTTBR_EL2 can point *)
Definition roots_ok (x : s2ctx) : Prop :=
  g_rtt x mod (4096 * num_root_rtts x) = 0 /\ g_rtt x < 2 ^ (if enable_lpa2 x then 52 else 48).

(* ------------------------------------------------------------------ *)
(** * The registers *)

Definition vtcr_check (b : N) (sl : Z) (lpa2 v16 : bool) (ps : N) : bool :=
  let v0 := if v16 then N.lor VTCR_FLAGS (2 ^ 19) else VTCR_FLAGS in
  let v1 := N.lor (N.lor (N.lor v0 (N.land (64 - b) (MASK 6 0))) (sl0_val sl)) (INPLACE 3 16 ps) in
  let w := if lpa2 then N.lor (if (sl =? -1)%Z then N.lor v1 (INPLACE 1 33 1) else v1) (INPLACE 1 32 1) else v1 in
  (vtcr_ipa_bits w =? b) && Bool.eqb (vtcr_ds w) lpa2 && Bool.eqb (N.testbit w 19) v16 &&
  (negb lpa2 && (sl =? -1)%Z || (vtcr_start_level w =? sl)%Z).
Lemma vtcr_check_all : forallb (fun b => forallb (fun sl => forallb (fun l => forallb (fun v => forallb (vtcr_check b sl l v)
  [0;1;2;3;4;5;6]) [true;false]) [true;false]) [-1;0;1;2]%Z) (map N.of_nat (seq 20 33)) = true.
Proof. vm_compute. reflexivity. Qed.

Lemma vtcr_ps_cases : forall w, exists k, In k [0;1;2;3;4;5;6] /\ realm_vtcr_ps w = INPLACE 3 16 k.
Proof.
  intro w. unfold realm_vtcr_ps. repeat (destruct (w =? _); [eexists; split; [|reflexivity]; cbn; tauto|]).
  exists 0. split; [cbn; tauto|reflexivity].
Qed.

Lemma vtcr_fields : forall c x, ctx_ok x -> let w := realm_vtcr c x in
  vtcr_ipa_bits w = ipa_bits x /\ vtcr_ds w = enable_lpa2 x /\ N.testbit w 19 = c_vmid16 c /\ vtcr_start_level w = s2_sl x.
Proof.
  intros c x X w. pose proof (ctx_sl _ X) as SL. pose proof (ctx_bits52 _ X) as B52.
  pose proof (ctx_lsb _ X (s2_sl x) ltac:(lia)) as LB.
  assert (21 <= lvl_lsb (s2_sl x)) by (unfold lvl_lsb; lia).
  destruct (vtcr_ps_cases (c_pa_width c)) as (k & Hk & Ek).
  pose proof vtcr_check_all as A. rewrite forallb_forall in A.
  specialize (A (ipa_bits x)). cbv beta in A. rewrite forallb_forall in A.
  assert (H1 : In (ipa_bits x) (map N.of_nat (seq 20 33))).
  { apply in_map_iff. exists (N.to_nat (ipa_bits x)). split; [lia|]. apply in_seq. lia. }
  assert (H2 : In (s2_sl x) [-1;0;1;2]%Z) by (cbn; lia).
  specialize (A H1 _ H2). cbv beta in A. rewrite forallb_forall in A.
  specialize (A (enable_lpa2 x) ltac:(destruct (enable_lpa2 x); cbn; tauto)). cbv beta in A. rewrite forallb_forall in A.
  specialize (A (c_vmid16 c) ltac:(destruct (c_vmid16 c); cbn; tauto)). cbv beta in A. rewrite forallb_forall in A.
  specialize (A k Hk). unfold vtcr_check in A. rewrite <- Ek in A.
  change (if enable_lpa2 x then _ else _) with w in A.
  apply andb_prop in A. destruct A as [A A4]. apply andb_prop in A. destruct A as [A A3]. apply andb_prop in A. destruct A as [A1 A2].
  apply N.eqb_eq in A1. apply Bool.eqb_prop in A2, A3.
  split; [exact A1|]. split; [exact A2|]. split; [exact A3|].
  apply orb_prop in A4. destruct A4 as [A4|A4]; [|apply Z.eqb_eq, A4].
  exfalso. apply andb_prop in A4. destruct A4 as [A4 A5]. apply Z.eqb_eq in A5. destruct (enable_lpa2 x) eqn:E; [discriminate|].
  pose proof (ctx_min _ X) as M. unfold min_starting_level in M. rewrite E in M. change S2TT_MIN_STARTING_LEVEL with 0%Z in M. lia.
Qed.


Lemma roots_page : forall x, ctx_ok x -> roots_ok x -> g_rtt x mod 2 ^ 12 = 0.
Proof.
  intros x X [A _]. pose proof (root_pos _ X) as P. rewrite (N.mod_mul_r (g_rtt x) 4096 (num_root_rtts x)) in A by lia.
  change (2 ^ 12) with 4096. apply N.eq_add_0 in A. apply A.
Qed.

Lemma vttbr_bit : forall x n, roots_ok x -> ctx_ok x ->
  N.testbit (realm_vttbr x) n =
    if n <? 12 then (if enable_lpa2 x then (2 <=? n) && (n <? 6) && N.testbit (g_rtt x) (n + 46) else false)
    else if n <? 48 then N.testbit (g_rtt x) n
    else (n <? 64) && N.testbit (vmid x) (n - 48).
Proof.
  intros x n RO X. pose proof (roots_page _ X RO) as A12. clear RO.
  assert (T0 : forall k, k < 12 -> N.testbit (g_rtt x) k = false) by (intros; apply (testbit_low_aligned _ 12); assumption).
  unfold realm_vttbr, INPLACE, EXTRACT. destruct (enable_lpa2 x); autorewrite with tbit.
  - destruct (N.ltb_spec n 12).
    + rewrite (T0 n) by assumption. cbn [andb orb]. replace (48 <=? n) with false by (symmetry; apply N.leb_gt; lia).
      cbn [andb]. rewrite orb_false_r.
      destruct (N.leb_spec 2 n); cbn [andb]; [|reflexivity]. destruct (N.ltb_spec n (2 + 4)), (N.ltb_spec n 6); try lia; cbn [andb].
      rewrite andb_true_r. replace (n - 2 + 48) with (n + 46) by lia.
      replace (48 <=? n + 46) with true by (symmetry; apply N.leb_le; lia).
      replace (n + 46 <? 48 + 4) with true by (symmetry; apply N.ltb_lt; lia). rewrite andb_true_r. reflexivity.
    + replace (n <? 2 + 4) with false by (symmetry; apply N.ltb_ge; lia). rewrite !andb_false_r, orb_false_r. cbn [negb].
      rewrite andb_true_r. replace (1 <=? n) with true by (symmetry; apply N.leb_le; lia).
      destruct (N.ltb_spec n 48).
      * replace (48 <=? n) with false by (symmetry; apply N.leb_gt; lia).
        replace (n <? 1 + 47) with true by (symmetry; apply N.ltb_lt; lia). cbn [andb]. rewrite andb_true_r, orb_false_r. reflexivity.
      * replace (48 <=? n) with true by (symmetry; apply N.leb_le; lia).
        replace (n <? 1 + 47) with false by (symmetry; apply N.ltb_ge; lia). cbn [andb]. rewrite andb_false_r. cbn [orb].
        change (48 + 16) with 64. apply andb_comm.
  - destruct (N.ltb_spec n 12).
    + rewrite (T0 n) by assumption. cbn [andb orb]. replace (48 <=? n) with false by (symmetry; apply N.leb_gt; lia). reflexivity.
    + replace (1 <=? n) with true by (symmetry; apply N.leb_le; lia).
      destruct (N.ltb_spec n 48).
      * replace (48 <=? n) with false by (symmetry; apply N.leb_gt; lia).
        replace (n <? 1 + 47) with true by (symmetry; apply N.ltb_lt; lia). cbn [andb]. rewrite andb_true_r, orb_false_r. reflexivity.
      * replace (48 <=? n) with true by (symmetry; apply N.leb_le; lia).
        replace (n <? 1 + 47) with false by (symmetry; apply N.ltb_ge; lia). cbn [andb]. rewrite andb_false_r. cbn [orb].
        change (48 + 16) with 64. apply andb_comm.
Qed.

Lemma vttbr_fields : forall c x, ctx_ok x -> roots_ok x -> vmid x < vmid_count c ->
  vttbr_base (realm_vttbr x) (realm_vtcr c x) = g_rtt x /\ vttbr_vmid (realm_vttbr x) (realm_vtcr c x) = vmid x.
Proof.
  intros c x X RO HV. destruct (vtcr_fields c x X) as (F1 & F2 & F3 & F4).
  pose proof (ctx_sl _ X) as SL. pose proof (root_pos _ X) as P. split.
  - unfold vttbr_base, vttbr_align. rewrite F1, F2, F4, arch_lsb_eq by lia.
    set (k := if enable_lpa2 x then N.max _ _ else _).
    destruct RO as [A B].
    assert (K : 4 <= k <= 16 /\ (enable_lpa2 x = true -> 6 <= k) /\ g_rtt x mod 2 ^ k = 0).
    { pose proof (ctx_lsb _ X (s2_sl x) ltac:(lia)) as LB. destruct X as (X1 & X2 & X3 & X4 & X5).
      assert (K1 : 4 <= k <= 16) by (unfold k; clear - X2 X4 LB; destruct (enable_lpa2 x); lia).
      split; [exact K1|]. split; [intro E; unfold k; rewrite E; clear; lia|].
      assert (D : exists q, 4096 * num_root_rtts x = q * 2 ^ k).
      { rewrite X5. unfold s2_num_root_rtts. replace (Z.to_N ((3 - s2_sl x) * 9 + 12 + 9)) with (lvl_lsb (s2_sl x) + 9) by (unfold lvl_lsb; lia).
        destruct (N.leb_spec (ipa_bits x) (lvl_lsb (s2_sl x) + 9)) as [Hs|Hs].
        - exists (2 ^ (12 - k)). rewrite <- N.pow_add_r. replace (12 - k + k) with 12; [reflexivity|].
          assert (k <= 12); [|lia]. unfold k. destruct (enable_lpa2 x); lia.
        - exists 1. rewrite N.mul_1_l. change 4096 with (2 ^ 12). rewrite <- N.pow_add_r. f_equal.
          unfold k. destruct (enable_lpa2 x); lia. }
      destruct D as (q & D). rewrite D in A. apply N.mod_divide in A; [|lia]. destruct A as (z & A).
      rewrite A, N.mul_assoc. apply N.mod_mul. apply N.pow_nonzero. discriminate. }
    destruct K as (K1 & K2 & K3). clearbody k.
    assert (R2 : roots_ok x) by (split; assumption). clear A.
    assert (BA : bits (realm_vttbr x) 47 k * 2 ^ k = g_rtt x mod 2 ^ 48).
    { apply N.bits_inj. intro n. rewrite testbit_mul_pow2, testbit_bits.
      destruct (N.leb_spec k n) as [Hn|Hn]; cbn [andb].
      - rewrite N.sub_add by assumption. destruct (N.ltb_spec (n - k) (47 - k + 1)); cbn [andb].
        + rewrite N.mod_pow2_bits_low by lia. rewrite vttbr_bit by assumption.
          replace (n <? 48) with true by (symmetry; apply N.ltb_lt; lia). destruct (N.ltb_spec n 12); [|reflexivity].
          assert (N.testbit (g_rtt x) n = false) as ->.
          { apply (testbit_low_aligned _ 12); [|assumption]. apply roots_page; assumption. }
          destruct (enable_lpa2 x); [|reflexivity]. pose proof (K2 eq_refl).
          replace (n <? 6) with false by (symmetry; apply N.ltb_ge; lia). rewrite andb_false_r. reflexivity.
        + rewrite N.mod_pow2_bits_high by lia. reflexivity.
      - rewrite N.mod_pow2_bits_low by lia. symmetry. apply (testbit_low_aligned _ k); assumption. }
    rewrite BA. destruct (enable_lpa2 x) eqn:E.
    + assert (BB : bits (realm_vttbr x) 5 2 = g_rtt x / 2 ^ 48).
      { apply N.bits_inj. intro n. rewrite testbit_bits, N.div_pow2_bits. change (5 - 2 + 1) with 4.
        destruct (N.ltb_spec n 4); cbn [andb].
        - rewrite vttbr_bit by assumption. rewrite E.
          replace (n + 2 <? 12) with true by (symmetry; apply N.ltb_lt; lia).
          replace (2 <=? n + 2) with true by (symmetry; apply N.leb_le; lia).
          replace (n + 2 <? 6) with true by (symmetry; apply N.ltb_lt; lia). cbn [andb]. f_equal. lia.
        - symmetry. apply (testbit_false_lt _ 52); [exact B|lia]. }
      rewrite BB. pose proof (N.div_mod (g_rtt x) (2 ^ 48)). lia.
    + apply N.mod_small. exact B.
  - unfold vttbr_vmid. rewrite F3. unfold vmid_count in HV.
    assert (W : forall k, k <= 16 -> vmid x < 2 ^ k -> bits (realm_vttbr x) (48 + k - 1) 48 = vmid x).
    { intros k Hk Hv. apply N.bits_inj. intro n. rewrite testbit_bits. destruct (N.ltb_spec n (48 + k - 1 - 48 + 1)); cbn [andb].
      - destruct (N.eq_dec k 0) as [->|].
        { assert (vmid x = 0) by (change (2 ^ 0) with 1 in Hv; lia). rewrite vttbr_bit by assumption.
          replace (n + 48 <? 12) with false by (symmetry; apply N.ltb_ge; lia). replace (n + 48 <? 48) with false by (symmetry; apply N.ltb_ge; lia).
          rewrite N.add_sub, H0, N.bits_0. apply andb_false_r. }
        rewrite vttbr_bit by assumption.
        replace (n + 48 <? 12) with false by (symmetry; apply N.ltb_ge; lia). replace (n + 48 <? 48) with false by (symmetry; apply N.ltb_ge; lia).
        replace (n + 48 <? 64) with true by (symmetry; apply N.ltb_lt; lia). rewrite N.add_sub. reflexivity.
      - symmetry. apply (testbit_false_lt _ k); [exact Hv|lia]. }
    destruct (c_vmid16 c).
    + apply (W 16); [lia|exact HV].
    + apply (W 8); [lia|exact HV].
Qed.

(* ------------------------------------------------------------------ *)
(** * The walk *)

(** What the MMU makes of an entry *)
Definition leaf_x (lpa2 : bool) (l : Z) (e : entry) (ipa : N) : xlat :=
  match e with
  | EAsRam pa => XOk l (enc lpa2 l e) (pa + ipa mod ms l) false false
  | EAsNs _ pa => XOk l (enc lpa2 l e) (pa + ipa mod ms l) true true
  | _ => XFault
  end.

Lemma page_of_in : forall b i, b mod 4096 = 0 -> i < 512 -> page_of (b + 8 * i) = b /\ (b + 8 * i) mod 4096 / 8 = i.
Proof. intros b i Hb Hi. unfold page_of. lia. Qed.

Section Walk.
Variables (c : cfg) (gh : ghost) (G : N -> granule) (V : N -> bool).
Hypothesis I : Inv c gh G V.

Lemma own_aligned : forall a rd l t, own gh a = Some (rd, l, t) -> a mod 4096 = 0.
Proof.
  intros a rd l t O. pose proof (own_rtt _ _ _ _ I _ _ _ _ O) as S.
  pose proof (i_gran _ _ _ _ I a) as F. rewrite S in F. specialize (F ltac:(discriminate)).
  unfold find_granule, is_aligned_granule in F. change GRANULE_SIZE with 4096 in F. apply andb_prop in F. destruct F as [F1 F2].
  lia.
Qed.

Lemma tt_read_entry : forall a rd l t d i, own gh a = Some (rd, l, t) -> is_rd G rd d -> i < 512 ->
  tt_read G (a + 8 * i) = Some (enc (enable_lpa2 (rd_ctx d)) l (ent gh a i)).
Proof.
  intros a rd l t d i O R Hi. pose proof (own_aligned _ _ _ _ O) as Al. destruct (page_of_in a i Al Hi) as [P1 P2].
  unfold tt_read. rewrite P1, P2, (own_rtt _ _ _ _ I _ _ _ _ O).
  destruct (own_words _ _ _ _ I _ _ _ _ _ O R) as (f & Hf & W). rewrite Hf, W by assumption. reflexivity.
Qed.

Lemma arch_walk_leaf : forall n fuel rd d l b ipa lf bf e, is_rd G rd d -> Z.to_nat (3 - l) = n -> (n <= fuel)%nat ->
  own gh b = Some (rd, l, ipa / ms l / 512) -> Leaf gh rd (ipa / 4096) lf bf e ->
  arch_walk fuel (tt_read G) (enable_lpa2 (rd_ctx d)) l (b + 8 * ((ipa / ms l) mod 512)) ipa = leaf_x (enable_lpa2 (rd_ctx d)) lf e ipa.
Proof.
  induction n as [|n IH]; intros fuel rd d l b ipa lf bf e R Hn Hf O LF;
    pose proof (inv_own _ _ _ _ I _ _ _ _ _ O R) as T; pose proof (t_level_ok _ _ _ _ _ _ _ T) as LV;
    pose proof (ctx_sl _ (inv_ctx _ _ _ _ I _ _ R)) as SL;
    pose proof (tt_read_entry _ _ _ _ _ _ O R (mod512_lt (ipa / ms l))) as RD;
    pose proof (t_entries _ _ _ _ _ _ _ T _ (mod512_lt (ipa / ms l))) as [VE _];
    destruct fuel as [|fuel]; try lia; cbn [arch_walk]; rewrite RD, arch_decode_enc by exact VE;
    (assert (LE : is_table_e (ent gh b ((ipa / ms l) mod 512)) = false -> l = lf /\ ent gh b ((ipa / ms l) mod 512) = e);
     [intro NT; destruct (leaf_unique _ _ _ _ I rd (ipa / 4096) l b (ent gh b ((ipa / ms l) mod 512)) lf bf e) as (K1 & K2 & K3);
        [unfold Leaf; rewrite <- num_page by lia; split; [exact O|split; [reflexivity|exact NT]]|exact LF|split; assumption]
     |]);
    destruct (ent gh b ((ipa / ms l) mod 512)) as [| | | | | | | |b'] eqn:Ee;
    try (destruct (LE eq_refl) as [<- <-]; unfold leaf_x; try reflexivity; rewrite arch_lsb_eq by lia; reflexivity);
    try (exfalso; destruct VE; lia).
  destruct (own_child _ _ _ _ I _ _ _ _ _ _ O (mod512_lt _) Ee) as (O' & L3).
  rewrite <- div512, num_succ in O' by assumption. rewrite arch_lsb_eq by lia. fold (ms (l + 1)).
  eapply IH; [exact R|lia|lia|exact O'|exact LF].
Qed.

(** The MMU translates every address with the entry of its page. *)
Lemma stage2_leaf : forall rd d ipa l b e, is_rd G rd d -> roots_ok (rd_ctx d) -> ipa < 2 ^ ipa_bits (rd_ctx d) ->
  Leaf gh rd (ipa / 4096) l b e ->
  stage2 (tt_read G) (realm_vttbr (rd_ctx d)) (realm_vtcr c (rd_ctx d)) ipa = leaf_x (enable_lpa2 (rd_ctx d)) l e ipa.
Proof.
  intros rd d ipa l b e R RO Hi LF. pose proof (inv_ctx _ _ _ _ I _ _ R) as X. pose proof (ctx_sl _ X) as SL.
  pose proof (inv_rd_ok _ _ _ _ I _ _ R) as (_ & _ & HV & _).
  destruct (vtcr_fields c _ X) as (F1 & F2 & F3 & F4). destruct (vttbr_fields c _ X RO HV) as (B1 & _).
  destruct (root_own _ _ _ _ I _ _ _ R Hi) as (K & O). unfold stage2. rewrite F1, F2, F4, B1.
  destruct (N.ltb_spec ipa (2 ^ ipa_bits (rd_ctx d))); [|lia]. cbv zeta. rewrite arch_lsb_eq by lia. fold (ms (s2_sl (rd_ctx d))).
  rewrite <- (arch_walk_leaf (Z.to_nat (3 - s2_sl (rd_ctx d))) 4 rd d (s2_sl (rd_ctx d)) _ ipa l b e R eq_refl ltac:(lia) O LF).
  f_equal. rewrite (div512 (ipa / ms (s2_sl (rd_ctx d)))) at 1. lia.
Qed.
Lemma stage2_out : forall rd d ipa, is_rd G rd d -> 2 ^ ipa_bits (rd_ctx d) <= ipa ->
  stage2 (tt_read G) (realm_vttbr (rd_ctx d)) (realm_vtcr c (rd_ctx d)) ipa = XFault.
Proof.
  intros rd d ipa R Hi. destruct (vtcr_fields c _ (inv_ctx _ _ _ _ I _ _ R)) as (F1 & _). unfold stage2. rewrite F1.
  destruct (N.ltb_spec ipa (2 ^ ipa_bits (rd_ctx d))); [lia|reflexivity].
Qed.
End Walk.
