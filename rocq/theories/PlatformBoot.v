(** Proofs about the validation of the manifest. *)
From Coq Require Import NArith ZArith List Bool Lia ZifyBool ZifyN ZifyNat.
From Verif Require Import Bits Platform SpecPlatform SpecBoot PlatformFacts.
Import ListNotations.
Local Open Scope N_scope.

Lemma load_id : forall ld a, mem64 ld -> a < 2 ^ 64 -> load64 ld a = ld a.
Proof. intros ld a H Ha. unfold load64, wrap64. rewrite (N.mod_small a) by exact Ha. apply N.mod_small, H. Qed.

Lemma banks_S : forall ld p n, banks_at ld p (N.of_nat (S n)) = (ld p, ld (p + 8)) :: banks_at ld (p + 16) (N.of_nat n).
Proof.
  intros ld p n. unfold banks_at. rewrite !Nat2N.id. cbn [seq map].
  f_equal.
  - f_equal; f_equal; lia.
  - rewrite <- seq_shift, map_map. apply map_ext. intros i. f_equal; f_equal; lia.
Qed.
Lemma banks_length : forall ld p n, length (banks_at ld p n) = N.to_nat n.
Proof. intros. unfold banks_at. rewrite map_length, seq_length. reflexivity. Qed.
Lemma words_S : forall ld p n, words_sum ld p (N.of_nat (S n)) = ld p + words_sum ld (p + 8) (N.of_nat n).
Proof.
  intros ld p n. unfold words_sum. rewrite !Nat2N.id. cbn [seq map fold_right].
  f_equal; [f_equal; lia|]. f_equal. rewrite <- seq_shift, map_map. apply map_ext. intros i. f_equal. lia.
Qed.

Lemma sum_words_spec : forall ld n p s, mem64 ld -> p + 8 * N.of_nat n <= 2 ^ 64 -> s < 2 ^ 64 ->
  sum_words ld p n s = (s + words_sum ld p (N.of_nat n)) mod 2 ^ 64.
Proof.
  intros ld. induction n as [|n IH]; intros p s Hm Hp Hs.
  - cbn [sum_words]. change (words_sum ld p (N.of_nat 0)) with 0. rewrite N.add_0_r, N.mod_small by exact Hs. reflexivity.
  - cbn [sum_words]. rewrite words_S. rewrite load_id by (try exact Hm; lia).
    destruct n as [|n].
    + cbn [sum_words]. change (words_sum ld (p + 8) (N.of_nat 0)) with 0. unfold wrap64. f_equal. lia.
    + assert (W : wrap64 (p + 8) = p + 8) by (apply N.mod_small; lia). rewrite W.
      rewrite IH; [|exact Hm|lia|apply N.mod_lt; lia].
      unfold wrap64. rewrite N.add_mod_idemp_l by lia. f_equal. lia.
Qed.

(** ** The banks *)

Lemma total_bound : forall w bs e, Forall bank_ok bs -> ascending bs -> Forall (fun b => fst b + snd b <= 2 ^ w) bs ->
  (forall b, In b bs -> e <= fst b) -> 4096 * total_granules bs + e <= N.max e (2 ^ w).
Proof.
  intros w. induction bs as [|b bs IH]; intros e Hok Ha Hw He.
  - cbn [total_granules map fold_right]. lia.
  - inversion Hok; inversion Hw; subst. pose proof (He b (or_introl eq_refl)).
    pose proof (IH (fst b + snd b) H2 (ascending_tail _ _ Ha) H6 (fun x Hx => ascending_head _ _ _ Ha Hx)).
    rewrite total_cons. destruct H1 as (_ & _ & _ & M). apply div_mul4096 in M. lia.
Qed.

Lemma last_small : forall s z, s <> 0 -> s + z <= 2 ^ 64 -> wrap64 (s + z + UINT64_MAX) = s + z - 1.
Proof.
  intros s z H L. unfold wrap64, UINT64_MAX. replace (s + z + (2 ^ 64 - 1)) with (s + z - 1 + 1 * 2 ^ 64) by lia.
  rewrite N.mod_add by lia. apply N.mod_small. lia.
Qed.

Lemma aligned_ge : forall s e, s mod 4096 = 0 -> (e + 1) mod 4096 = 0 -> e <= s -> e + 1 <= s.
Proof. intros s e A B L. apply div_mul4096 in A, B. lia. Qed.

Definition bank_test (b : dram_bank) : bool :=
  (fst b =? 0) || (snd b =? 0) || negb (N.land (N.lor (fst b) (snd b)) 4095 =? 0).
Lemma bank_test_spec : forall b, bank_test b = false <-> bank_ok b.
Proof.
  intros b. unfold bank_test, bank_ok. rewrite !orb_false_iff, negb_false_iff, N.eqb_eq, lor_aligned, !N.eqb_neq. tauto.
Qed.

(** The loop accepts exactly ascending, well-formed banks *)
Lemma check_banks_spec : forall w ld n p e k, mem64 ld -> p + 16 * N.of_nat n <= 2 ^ 64 -> w <= 64 ->
  banks_end (banks_at ld p (N.of_nat n)) -> (e = 0 \/ (e + 1) mod 4096 = 0) ->
  (exists t, check_banks w ld n p e k = Some t) <->
  (Forall bank_ok (banks_at ld p (N.of_nat n)) /\ ascending (banks_at ld p (N.of_nat n)) /\
   Forall (fun b => fst b + snd b <= 2 ^ w) (banks_at ld p (N.of_nat n)) /\
   (forall b, In b (banks_at ld p (N.of_nat n)) -> e < fst b)).
Proof.
  intros w ld. induction n as [|n IH]; intros p e k Hm Hp Hw Hend He.
  { cbn [check_banks]. change (banks_at ld p (N.of_nat 0)) with (@nil dram_bank). split.
    - intros _. split; [constructor|]. split; [intros [|i] j b b' _ H; discriminate|]. split; [constructor|]. intros b [].
    - intros _. exists k. reflexivity. }
  rewrite banks_S in *. cbn [check_banks].
  rewrite (load_id ld p) by (try exact Hm; lia). rewrite (load_id ld (p + 8)) by (try exact Hm; lia).
  set (b := (ld p, ld (p + 8))) in *. inversion Hend as [|? ? Hb Hend']; subst.
  change (ld p) with (fst b). change (ld (p + 8)) with (snd b).
  fold (bank_test b). destruct (bank_test b) eqn:T.
  { split; [intros [t H]; discriminate|]. intros (F & _). exfalso. inversion F as [|? ? Fb _]; subst.
    apply bank_test_spec in Fb. congruence. }
  apply bank_test_spec in T. pose proof T as (T1 & T2 & T3 & T4).
  assert (G : forall k', (exists t, check_banks w ld n (wrap64 (p + 16)) (fst b + snd b - 1) k' = Some t) <->
        (Forall bank_ok (banks_at ld (p + 16) (N.of_nat n)) /\ ascending (banks_at ld (p + 16) (N.of_nat n)) /\
         Forall (fun b => fst b + snd b <= 2 ^ w) (banks_at ld (p + 16) (N.of_nat n)) /\
         (forall b', In b' (banks_at ld (p + 16) (N.of_nat n)) -> fst b + snd b - 1 < fst b'))).
      { intros k'. destruct n as [|n'].
        - cbn [check_banks]. change (banks_at ld (p + 16) (N.of_nat 0)) with (@nil dram_bank). split.
          + intros _. split; [constructor|]. split; [intros [|i] j x x' _ H; discriminate|]. split; [constructor|]. intros x [].
          + intros _. exists k'. reflexivity.
        - assert (Wp : wrap64 (p + 16) = p + 16) by (apply N.mod_small; lia). rewrite Wp.
          apply IH; [exact Hm|lia|exact Hw|exact Hend'|].
          right. replace (fst b + snd b - 1 + 1) with (fst b + snd b) by lia.
          apply div_mul4096 in T3, T4. rewrite T3, T4, <- N.mul_add_distr_l, N.mul_comm. apply N.mod_mul. lia. }
  destruct (N.ltb_spec (fst b) e) as [L|L].
  { split; [intros [t H]; discriminate|]. intros (_ & _ & _ & F). pose proof (F b (or_introl eq_refl)). lia. }
  assert (L' : e < fst b).
  { destruct He as [->|He]; [lia|]. pose proof (aligned_ge _ _ T3 He L). lia. }
  rewrite (last_small _ _ T1 Hb). rewrite N.shiftl_1_l.
  destruct (N.leb_spec (2 ^ w) (fst b + snd b - 1)) as [M|M].
  { split; [intros [t H]; discriminate|]. intros (_ & _ & F & _). inversion F; subst. lia. }
  rewrite G. split.
  - intros (F1 & F2 & F3 & F4).
    split; [constructor; assumption|]. split; [apply ascending_cons; [|exact F2]; intros x Hx; pose proof (F4 x Hx); lia|].
    split; [constructor; [lia|exact F3]|]. intros x [<-|Hx]; [exact L'|]. pose proof (F4 x Hx). lia.
  - intros (F1 & F2 & F3 & F4). inversion F1; inversion F3; subst.
    split; [assumption|]. split; [exact (ascending_tail _ _ F2)|]. split; [assumption|].
    intros x Hx. pose proof (ascending_head _ _ _ F2 Hx). lia.
Qed.

Lemma check_banks_count : forall w ld n p e k t, mem64 ld -> p + 16 * N.of_nat n <= 2 ^ 64 ->
  check_banks w ld n p e k = Some t -> k + total_granules (banks_at ld p (N.of_nat n)) < 2 ^ 64 ->
  t = k + total_granules (banks_at ld p (N.of_nat n)).
Proof.
  intros w ld. induction n as [|n IH]; intros p e k t Hm Hp H L.
  - cbn [check_banks] in H. injection H as <-. change (total_granules (banks_at ld p (N.of_nat 0))) with 0. lia.
  - rewrite banks_S, total_cons in *. cbn [check_banks snd] in *.
    rewrite (load_id ld p) in H by (try exact Hm; lia). rewrite (load_id ld (p + 8)) in H by (try exact Hm; lia).
    destruct (_ || _ || _) in H; [discriminate|]. destruct (_ <? _) in H; [discriminate|]. destruct (_ <=? _) in H; [discriminate|].
    set (q := ld (p + 8) / 4096) in *. clearbody q.
    assert (Wk : wrap64 (k + q) = k + q) by (apply N.mod_small; lia). rewrite Wk in H.
    destruct n as [|n'].
    + cbn [check_banks] in H. injection H as <-. change (total_granules (banks_at ld (p + 16) (N.of_nat 0))) with 0. lia.
    + assert (Wp : wrap64 (p + 16) = p + 16) by (apply N.mod_small; lia). rewrite Wp in H.
      rewrite (IH (p + 16) _ (k + q) _ Hm ltac:(lia) H ltac:(lia)). lia.
Qed.

Lemma copy_banks_spec : forall ld n p k, mem64 ld -> p + 16 * N.of_nat n <= 2 ^ 64 ->
  k + total_granules (banks_at ld p (N.of_nat n)) < 2 ^ 64 ->
  copy_banks ld n p k = (lay (banks_at ld p (N.of_nat n)) k, k + total_granules (banks_at ld p (N.of_nat n))).
Proof.
  intros ld. induction n as [|n IH]; intros p k Hm Hp L.
  - cbn [copy_banks]. change (banks_at ld p (N.of_nat 0)) with (@nil dram_bank). cbn [lay total_granules map fold_right]. f_equal. lia.
  - rewrite banks_S, total_cons in *. cbn [copy_banks snd fst lay] in *.
    rewrite (load_id ld p) by (try exact Hm; lia). rewrite (load_id ld (p + 8)) by (try exact Hm; lia).
    set (q := ld (p + 8) / 4096) in *.
    assert (Wk : wrap64 (k + q) = k + q) by (apply N.mod_small; lia). rewrite Wk.
    destruct n as [|n'].
    + cbn [copy_banks]. change (banks_at ld (p + 16) (N.of_nat 0)) with (@nil dram_bank). cbn [lay total_granules map fold_right]. f_equal. lia.
    + assert (Wp : wrap64 (p + 16) = p + 16) by (apply N.mod_small; lia). rewrite Wp.
      rewrite (IH (p + 16) (k + q) Hm ltac:(lia) ltac:(lia)). f_equal. lia.
Qed.

Lemma dram_total : forall w bs, dram_ok w bs -> w <= 63 -> total_granules bs <= 2 ^ 51.
Proof.
  intros w bs (_ & A & B & C) Hw. pose proof (total_bound w bs 0 A B C (fun b _ => N.le_0_l _)).
  assert (2 ^ w <= 2 ^ 63) by (apply N.pow_le_mono_r; lia). lia.
Qed.

Lemma version_lt : forall v k, k < 2 ^ 16 -> (v <? make_version 0 k) = (v <? k).
Proof.
  intros v k H. unfold make_version. change (N.land 0 32767) with 0. rewrite N.shiftl_0_l, N.lor_0_l.
  change 65535 with (N.ones 16). rewrite N.land_ones, N.mod_small by exact H. reflexivity.
Qed.

(** The check accepts exactly the right manifests *)
Lemma dram_exact : forall p ld mf r, mem64 ld -> table_in_memory (mf_banks mf) (mf_num_banks mf) ->
  banks_end (manifest_banks ld mf) -> p_pa_width p <= 63 -> p_max_banks p < 2 ^ 48 ->
  get_dram_data_validated p ld mf = BOk r <->
  r = (mf_num_banks mf, mf_banks mf) /\ dram_manifest_ok p ld mf.
Proof.
  intros p ld mf r Hm Hp Hend Hw Hn. unfold get_dram_data_validated, dram_manifest_ok, manifest_banks, table_in_memory in *.
  rewrite version_lt by reflexivity.
  destruct (N.ltb_spec (mf_version mf) 2) as [V|V]; [split; [discriminate|intros (_ & H & _); lia]|].
  set (n := mf_num_banks mf) in *. set (ptr := mf_banks mf) in *.
  destruct (N.eqb_spec n 0) as [N0|N0]; cbn [orb]; [split; [discriminate|intros (_ & _ & H & _); lia]|].
  destruct (N.ltb_spec (p_max_banks p) n) as [N1|N1]; cbn [orb]; [split; [discriminate|intros (_ & _ & H & _); lia]|].
  destruct (N.eqb_spec ptr 0) as [P0|P0]; cbn [orb]; [split; [discriminate|intros (_ & _ & _ & H & _); lia]|].
  assert (En : N.of_nat (N.to_nat n) = n) by apply N2Nat.id.
  pose proof (check_banks_spec (p_pa_width p) ld (N.to_nat n) ptr 0 0 Hm ltac:(rewrite En; exact Hp) ltac:(lia) ltac:(rewrite En; exact Hend) (or_introl eq_refl)) as CS.
  rewrite En in CS.
  assert (Ne : banks_at ld ptr n <> []).
  { intros E. apply (f_equal (@length _)) in E. rewrite banks_length in E. cbn in E. lia. }
  destruct (check_banks _ ld (N.to_nat n) ptr 0 0) as [t|] eqn:EC.
  2:{ split; [discriminate|]. intros (_ & _ & _ & _ & _ & (_ & A & B & C) & _). exfalso.
      destruct (proj2 CS) as [t Ht]; [|discriminate]. split; [exact A|]. split; [exact B|]. split; [exact C|].
      intros b Hb. rewrite Forall_forall in A. destruct (A b Hb). lia. }
  destruct (proj1 CS) as (A & B & C & _); [exists t; reflexivity|].
  assert (Dok : dram_ok (p_pa_width p) (banks_at ld ptr n)) by (split; [exact Ne|split; [exact A|split; [exact B|exact C]]]).
  pose proof (dram_total _ _ Dok Hw) as DT.
  assert (Et : t = total_granules (banks_at ld ptr n)).
  { pose proof (check_banks_count _ _ _ _ _ _ _ Hm ltac:(rewrite En; exact Hp) EC) as K. rewrite En, N.add_0_l in K. apply K. lia. }
  unfold checksum_calc. rewrite !land7.
  assert (W16 : wrap64 (16 * n) = 16 * n) by (apply N.mod_small; lia). rewrite W16.
  assert (M16 : (16 * n) mod 8 = 0) by (replace (16 * n) with (2 * n * 8) by lia; apply N.mod_mul; lia). rewrite M16.
  assert (D16 : 16 * n / 8 = 2 * n) by (replace (16 * n) with (2 * n * 8) by lia; apply N.div_mul; lia). rewrite D16.
  destruct (N.eqb_spec (ptr mod 8) 0) as [P8|P8]; cbn [bassert bbind].
  2:{ split; [discriminate|]. intros (_ & _ & _ & _ & H & _). contradiction. }
  change (0 =? 0) with true. cbn [bassert bbind].
  rewrite sum_words_spec; [|exact Hm|rewrite N2Nat.id; lia|lia]. rewrite N2Nat.id, N.add_0_l.
  unfold wrap64. rewrite <- N.add_mod by lia.
  destruct (N.eqb_spec ((n + ptr + mf_dram_sum mf + words_sum ld ptr (2 * n)) mod 2 ^ 64) 0) as [S|S]; cbn [negb].
  2:{ split; [discriminate|]. intros (_ & _ & _ & _ & _ & _ & H & _). contradiction. }
  destruct (N.ltb_spec (p_max_granules p) t) as [T|T].
  { split; [discriminate|]. intros (_ & _ & _ & _ & _ & _ & _ & H). lia. }
  split.
  - intros E. injection E as <-. split; [reflexivity|]. repeat split; try assumption; try lia.
  - intros [-> _]. reflexivity.
Qed.

Lemma consoles_exact : forall ld mf r, mem64 ld -> mf_consoles mf + 48 * mf_num_consoles mf <= 2 ^ 64 ->
  48 * mf_num_consoles mf < 2 ^ 64 ->
  get_console_list ld mf = BOk r <-> r = (mf_num_consoles mf, mf_consoles mf) /\ consoles_ok ld mf.
Proof.
  intros ld mf r Hm Hp Hn. unfold get_console_list, consoles_ok. rewrite version_lt by reflexivity.
  destruct (N.ltb_spec (mf_version mf) 3) as [V|V]; [split; [discriminate|intros (_ & H & _); lia]|].
  set (n := mf_num_consoles mf) in *. set (ptr := mf_consoles mf) in *.
  unfold checksum_calc. rewrite !land7.
  assert (W : wrap64 (48 * n) = 48 * n) by (apply N.mod_small; exact Hn). rewrite W.
  assert (M : (48 * n) mod 8 = 0) by (replace (48 * n) with (6 * n * 8) by lia; apply N.mod_mul; lia). rewrite M.
  assert (D : 48 * n / 8 = 6 * n) by (replace (48 * n) with (6 * n * 8) by lia; apply N.div_mul; lia). rewrite D.
  destruct (N.eqb_spec (ptr mod 8) 0) as [P8|P8]; cbn [bassert bbind].
  2:{ split; [discriminate|]. intros (_ & _ & H & _). contradiction. }
  change (0 =? 0) with true. cbn [bassert bbind].
  rewrite sum_words_spec; [|exact Hm|rewrite N2Nat.id; lia|lia]. rewrite N2Nat.id, N.add_0_l.
  unfold wrap64. rewrite <- N.add_mod by lia.
  destruct (N.eqb_spec ((n + ptr + mf_console_sum mf + words_sum ld ptr (6 * n)) mod 2 ^ 64) 0) as [S|S].
  - split; [intros E; injection E as <-|intros [-> _]; reflexivity]. repeat split; assumption.
  - split; [discriminate|]. intros (_ & _ & _ & H). contradiction.
Qed.

Lemma args_exact : forall p ld x0 x1 x2 x3,
  (exists mf, el3_ifc_init p ld x0 x1 x2 x3 = BOk mf) <->
  boot_args_ok p x0 x1 x2 x3 /\ vers_compatible (mf_version (read_manifest ld x3)) = true.
Proof.
  intros p ld x0 x1 x2 x3. unfold el3_ifc_init, boot_args_ok, process_boot_manifest.
  assert (VC : vers_compatible x1 = true <-> (x1 / 2 ^ 16) mod 2 ^ 15 = 0 /\ 3 <= x1 mod 2 ^ 16).
  { unfold vers_compatible, vers_major, vers_minor. change 32767 with (N.ones 15). change 65535 with (N.ones 16).
    rewrite !N.land_ones, N.shiftr_div_pow2, andb_true_iff, N.eqb_eq, N.leb_le. reflexivity. }
  destruct (vers_compatible x1) eqn:V; cbn [negb].
  2:{ split; [intros [mf H]; discriminate|]. intros ((A & B & _) & _). exfalso. assert (false = true) by (apply VC; split; assumption). discriminate. }
  destruct (proj1 VC eq_refl) as [V1 V2].
  destruct (N.ltb_spec (p_max_cpus p) x2) as [C|C]; [split; [intros [mf H]; discriminate|intros ((_ & _ & H & _) & _); lia]|].
  destruct (N.leb_spec x2 x0) as [D|D]; [split; [intros [mf H]; discriminate|intros ((_ & _ & H & _) & _); lia]|].
  rewrite land4095.
  destruct (N.eqb_spec x3 0) as [Z|Z]; cbn [orb]; [split; [intros [mf H]; discriminate|intros ((_ & _ & _ & H & _) & _); lia]|].
  destruct (N.eqb_spec (x3 mod 4096) 0) as [Y|Y]; cbn [negb]; [|split; [intros [mf H]; discriminate|intros ((_ & _ & _ & _ & H) & _); lia]].
  destruct (vers_compatible (mf_version (read_manifest ld x3))) eqn:W.
  - split; [|intros _; eexists; reflexivity]. intros _. split; [|reflexivity]. repeat split; try assumption; lia.
  - split; [intros [mf H]; discriminate|]. intros [_ H]. discriminate.
Qed.
Lemma init_manifest : forall p ld x0 x1 x2 x3 mf, el3_ifc_init p ld x0 x1 x2 x3 = BOk mf -> mf = read_manifest ld x3.
Proof.
  intros p ld x0 x1 x2 x3 mf H. unfold el3_ifc_init, process_boot_manifest in H.
  destruct (negb _) in H; [discriminate|]. destruct (_ <? _) in H; [discriminate|]. destruct (_ <=? _) in H; [discriminate|].
  destruct (_ || _) in H; [discriminate|]. destruct (vers_compatible _) in H; [|discriminate]. congruence.
Qed.

(** ** Layouts *)

Lemma layout_known : forall p bs ly, layout_for p bs ly ->
  ly = mkLayout (total_granules bs) (lay bs 0) /\ dram_ok (p_pa_width p) bs /\ p_pa_width p <= 63 /\
  N.of_nat (length bs) <= p_max_banks p /\ total_granules bs <= p_max_granules p /\ p_max_granules p < 2 ^ 63.
Proof.
  intros p bs ly (ld & ptr & Hm & Hp & E & Hok & Hw & Ht & Hg & H). unfold table_in_memory in Hp.
  unfold set_dram_layout in H. apply bbind_ok in H. destruct H as (u & A & H). clear u A.
  apply bbind_ok in H. destruct H as (u & A & H). apply bassert_ok in A. apply N.leb_le in A.
  rewrite copy_banks_spec in H; [|exact Hm|rewrite N2Nat.id; exact Hp|].
  2:{ rewrite N2Nat.id, <- E. pose proof (dram_total _ _ Hok ltac:(lia)). lia. }
  rewrite N2Nat.id, <- E in H. apply bbind_ok in H. destruct H as (u' & _ & H). injection H as <-.
  repeat split; try assumption; try (exact (proj1 Hok)); try lia; try apply Hok.
Qed.

Lemma layout_exists : forall p ld bs ptr, mem64 ld -> table_in_memory ptr (N.of_nat (length bs)) ->
  bs = banks_at ld ptr (N.of_nat (length bs)) -> dram_ok (p_pa_width p) bs -> p_pa_width p <= 52 ->
  N.of_nat (length bs) <= p_max_banks p -> total_granules bs <= p_max_granules p -> p_max_granules p <= 2 ^ 40 ->
  exists ly, layout_for p bs ly.
Proof.
  intros p ld bs ptr Hm Hp E Hok Hw Hn Ht Hg.
  assert (exists ly, set_dram_layout p ld (N.of_nat (length bs)) ptr = BOk ly) as [ly H].
  { unfold set_dram_layout. assert (Wp : p_pa_width p <= 63) by lia. assert (Gp : p_max_granules p < 2 ^ 63) by lia.
    pose proof (banks_pos p bs _ Hok Wp Hn Ht Gp) as P.
    rewrite (proj2 (N.ltb_lt _ _) P). cbn [bassert bbind]. rewrite (proj2 (N.leb_le _ _) Hn). cbn [bassert bbind].
    rewrite copy_banks_spec; [|exact Hm|rewrite N2Nat.id; exact Hp|].
    2:{ rewrite N2Nat.id, <- E. pose proof (dram_total _ _ Hok ltac:(lia)). lia. }
    rewrite N2Nat.id, <- E. rewrite N.add_0_l. rewrite (proj2 (N.leb_le _ _) Ht). eexists. reflexivity. }
  exists ly, ld, ptr. repeat split; try assumption; apply Hok.
Qed.

Lemma boot_layout : forall p ld x0 x1 x2 x3 ly, let mf := read_manifest ld x3 in
  mem64 ld -> table_in_memory (mf_banks mf) (mf_num_banks mf) -> banks_end (manifest_banks ld mf) ->
  p_pa_width p <= 52 -> p_max_banks p < 2 ^ 48 -> p_max_granules p <= 2 ^ 40 ->
  boot p ld x0 x1 x2 x3 = BOk ly ->
  boot_args_ok p x0 x1 x2 x3 /\ dram_manifest_ok p ld mf /\ layout_for p (manifest_banks ld mf) ly.
Proof.
  intros p ld x0 x1 x2 x3 ly mf Hm Hp Hend Hw Hn Hg H. unfold boot in H.
  apply bbind_ok in H. destruct H as (mf' & Hi & H).
  pose proof (init_manifest _ _ _ _ _ _ _ Hi) as E. fold mf in E. subst mf'.
  destruct (proj1 (args_exact p ld x0 x1 x2 x3)) as [Ha _]; [eexists; exact Hi|].
  apply bbind_ok in H. destruct H as (c & _ & H). apply bbind_ok in H. destruct H as (d & Hd & H).
  apply dram_exact in Hd; [|assumption|assumption|assumption|lia|assumption]. destruct Hd as [-> Hd].
  split; [exact Ha|]. split; [exact Hd|]. cbn [fst snd] in H.
  destruct Hd as (_ & _ & _ & _ & D & _ & T).
  assert (L : N.of_nat (length (manifest_banks ld mf)) = mf_num_banks mf).
  { unfold manifest_banks. rewrite banks_length. apply N2Nat.id. }
  exists ld, (mf_banks mf). rewrite L. repeat split; try assumption; try reflexivity; apply D.
Qed.

Section For.
Variables (p : plat) (bs : list dram_bank) (ly : layout).
Hypothesis (H : layout_for p bs ly).

Lemma for_in : forall a, dram_granule bs a ->
  addr_to_idx p ly a = BOk (granules_below bs a) /\ granules_below bs a < total_granules bs /\
  idx_to_addr p ly (granules_below bs a) = BOk a.
Proof.
  intros a Ha. destruct (layout_known p bs ly H) as (-> & A & B & C & D & E).
  split; [eapply addr_to_idx_in; eassumption|]. split; [eapply below_lt; eassumption|eapply addr_idx_addr; eassumption].
Qed.
Lemma for_idx : forall i, i < total_granules bs ->
  exists a, dram_granule bs a /\ idx_to_addr p ly i = BOk a /\ addr_to_idx p ly a = BOk i.
Proof.
  intros i Hi. destruct (layout_known p bs ly H) as (E0 & A & B & C & D & E).
  destruct (idx_to_addr_spec p bs _ A B C D E i Hi) as (a & H1 & H2 & H3). rewrite <- E0 in *.
  exists a. split; [exact H2|]. split; [exact H1|]. rewrite (proj1 (for_in a H2)), H3. reflexivity.
Qed.
Lemma for_out : forall a, a < 2 ^ 64 -> ~ dram_granule bs a ->
  addr_to_idx p ly a = BOk (2 ^ 64 - 1) /\ find_granule_desc p ly a = BOk None.
Proof.
  intros a Ha N. destruct (layout_known p bs ly H) as (-> & A & B & C & D & E).
  split; [apply (addr_to_idx_out p bs _ A B C D E a Ha N)|eapply find_out; eassumption].
Qed.
Lemma for_inj : forall a a' i, a < 2 ^ 64 -> a' < 2 ^ 64 -> i < total_granules bs ->
  addr_to_idx p ly a = BOk i -> addr_to_idx p ly a' = BOk i -> a = a'.
Proof.
  intros a a' i Ha Ha' Hi E E'. destruct (layout_known p bs ly H) as (E0 & A & B & C & D & G).
  assert (K : forall x, x < 2 ^ 64 -> addr_to_idx p ly x = BOk i -> dram_granule bs x /\ granules_below bs x = i).
  { intros x Hx Ex. rewrite E0 in Ex. destruct (addr_to_idx_spec p bs _ A B C D G x Hx) as (v & Ev & [(M & k & b & Hk & Hin & Hv)|[N Hv]]).
    - rewrite Ev in Ex. injection Ex as ->.
      assert (Dx : dram_granule bs x) by (split; [exact M|exists b; split; [eapply nth_error_In; exact Hk|exact Hin]]).
      split; [exact Dx|]. destruct A as (_ & A1 & A2 & _). rewrite (below_start bs k b x A2 A1 Hk Hin). congruence.
    - rewrite Ev in Ex. injection Ex as <-. rewrite Hv in Hi. unfold UINT64_MAX in Hi. lia. }
  destruct (K a Ha E) as [D1 B1], (K a' Ha' E') as [D2 B2].
  eapply below_inj; try eassumption. congruence.
Qed.
Lemma for_next : forall a a' i i', dram_granule bs a -> dram_granule bs a' -> a < a' ->
  addr_to_idx p ly a = BOk i -> addr_to_idx p ly a' = BOk i' ->
  i < i' /\ ((forall x, dram_granule bs x -> ~ (a < x < a')) <-> i' = i + 1).
Proof.
  intros a a' i i' Da Da' L E E'. rewrite (proj1 (for_in a Da)) in E. rewrite (proj1 (for_in a' Da')) in E'.
  injection E as <-. injection E' as <-. destruct (layout_known p bs ly H) as (E0 & A & B & C & D & G).
  assert (S : granules_below bs a < granules_below bs a') by (eapply below_strict; eassumption).
  split; [exact S|]. split.
  - intros Gap. destruct (N.eq_dec (granules_below bs a') (granules_below bs a + 1)) as [X|X]; [exact X|].
    pose proof (proj1 (proj2 (for_in a' Da'))).
    destruct (for_idx (granules_below bs a + 1)) as (x & Dx & _ & Ex); [lia|].
    rewrite (proj1 (for_in x Dx)) in Ex. injection Ex as Ex.
    exfalso. apply (Gap x Dx). split.
    + destruct (N.lt_ge_cases a x) as [Y|Y]; [exact Y|]. pose proof (below_mono bs x a Y). lia.
    + destruct (N.lt_ge_cases x a') as [Y|Y]; [exact Y|]. pose proof (below_mono bs a' x Y). lia.
  - intros X x Dx [Y1 Y2].
    assert (granules_below bs a < granules_below bs x) by (eapply below_strict; eassumption).
    assert (granules_below bs x < granules_below bs a') by (eapply below_strict; eassumption). lia.
Qed.
Lemma for_find : forall a g, a < 2 ^ 64 ->
  find_granule_desc p ly a = BOk (Some g) <-> dram_granule bs a /\ g < p_max_granules p /\ granule_addr p ly g = BOk a /\ addr_to_granule p ly a = BOk g.
Proof.
  intros a g Ha. destruct (layout_known p bs ly H) as (E0 & A & B & C & D & G). split.
  - intros F. assert (Dg : dram_granule bs a \/ ~ dram_granule bs a).
    { rewrite E0 in F. destruct (addr_to_idx_spec p bs _ A B C D G a Ha) as (v & Ev & [(M & k & b & Hk & Hin & Hv)|[N Hv]]).
      - left. split; [exact M|]. exists b. split; [eapply nth_error_In; exact Hk|exact Hin].
      - right. exact N. }
    destruct Dg as [Dg|Dg].
    + rewrite E0 in F. rewrite (find_in p bs _ A B C D G a Dg) in F. injection F as <-.
      destruct (for_in a Dg) as (F1 & F2 & F3). split; [exact Dg|]. split; [lia|]. split; [exact F3|].
      rewrite E0. eapply to_granule; eassumption.
    + rewrite (proj2 (for_out a Ha Dg)) in F. discriminate.
  - intros (Dg & _ & Eg & _). rewrite E0. rewrite (find_in p bs _ A B C D G a Dg).
    destruct (for_in a Dg) as (F1 & F2 & F3). do 2 f_equal.
    unfold granule_addr in Eg. assert (X : g < total_granules bs).
    { unfold idx_to_addr in Eg. apply bbind_ok in Eg. destruct Eg as (u & _ & Eg). apply bbind_ok in Eg.
      destruct Eg as (u' & Eg & _). apply bassert_ok in Eg. apply N.ltb_lt in Eg. rewrite E0 in Eg. exact Eg. }
    destruct (for_idx g X) as (x & Dx & Ex & Ix). rewrite Eg in Ex. injection Ex as <-.
    rewrite F1 in Ix. congruence.
Qed.

End For.
