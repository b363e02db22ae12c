(** Proofs about boot and the translation of granule addresses. *)
From Coq Require Import NArith ZArith List Bool Lia ZifyBool ZifyN ZifyNat.
From Verif Require Import Bits Platform SpecPlatform.
Import ListNotations.
Local Open Scope N_scope.

Lemma bassert_ok : forall b u, bassert b = BOk u -> b = true.
Proof. intros [|] u H; [reflexivity|discriminate]. Qed.
Lemma bbind_ok : forall {A B} (x : bres A) (f : A -> bres B) r, bbind x f = BOk r -> exists a, x = BOk a /\ f a = BOk r.
Proof. intros A B [a|e| |] f r H; try discriminate. exists a. split; [reflexivity|exact H]. Qed.

Lemma land4095 : forall x, N.land x 4095 = x mod 4096.
Proof. intros x. change 4095 with (N.ones 12). rewrite N.land_ones. reflexivity. Qed.
Lemma land7 : forall x, N.land x 7 = x mod 8.
Proof. intros x. change 7 with (N.ones 3). rewrite N.land_ones. reflexivity. Qed.
Lemma lor_aligned : forall x y, N.land (N.lor x y) 4095 = 0 <-> x mod 4096 = 0 /\ y mod 4096 = 0.
Proof.
  intros x y. rewrite N.land_lor_distr_l, !land4095. rewrite N.lor_eq_0_iff. reflexivity.
Qed.
Lemma div_mul4096 : forall x, x mod 4096 = 0 -> x = 4096 * (x / 4096).
Proof. intros x H. pose proof (N.div_mod x 4096). lia. Qed.

(** ** Lists of banks *)

Section Lists.

Lemma total_cons : forall b bs, total_granules (b :: bs) = snd b / 4096 + total_granules bs.
Proof. reflexivity. Qed.
Lemma total_app : forall bs bs', total_granules (bs ++ bs') = total_granules bs + total_granules bs'.
Proof. induction bs as [|b bs IH]; intros bs'; [reflexivity|]. simpl app. rewrite !total_cons, IH. lia. Qed.

Lemma ascending_tail : forall b bs, ascending (b :: bs) -> ascending bs.
Proof.
  intros b bs H i j x y Hij Hi Hj. apply (H (S i) (S j) x y); [lia|exact Hi|exact Hj].
Qed.
Lemma ascending_head : forall b bs x, ascending (b :: bs) -> In x bs -> fst b + snd b <= fst x.
Proof.
  intros b bs x H Hx. apply In_nth_error in Hx. destruct Hx as [j Hj].
  apply (H 0%nat (S j) b x); [lia|reflexivity|exact Hj].
Qed.
Lemma ascending_cons : forall b bs,
  (forall x, In x bs -> fst b + snd b <= fst x) -> ascending bs -> ascending (b :: bs).
Proof.
  intros b bs Hb H i j x y Hij Hi Hj. destruct j as [|j]; [lia|]. cbn [nth_error] in Hj.
  destruct i as [|i]; cbn [nth_error] in Hi.
  - injection Hi as <-. apply Hb. eapply nth_error_In; exact Hj.
  - apply (H i j x y); [lia|exact Hi|exact Hj].
Qed.
Lemma ascending_disjoint : forall bs, ascending bs -> disjoint_banks bs.
Proof.
  intros bs H i j b b' a Hij Hi Hj [Ha Ha']. unfold in_bank in *.
  destruct (Nat.lt_ge_cases i j) as [L|L].
  - pose proof (H i j b b' L Hi Hj). lia.
  - pose proof (H j i b' b ltac:(lia) Hj Hi). lia.
Qed.

Definition start_of (bs : list dram_bank) (i : nat) : N := total_granules (firstn i bs).

Lemma firstn_S_nth : forall {A} (l : list A) i x, nth_error l i = Some x -> firstn (S i) l = firstn i l ++ [x].
Proof.
  induction l as [|y l IH]; intros i x H; [destruct i; discriminate|].
  destruct i as [|i]; cbn [nth_error] in H; [injection H as ->; reflexivity|].
  cbn [firstn app]. f_equal. exact (IH i x H).
Qed.
Lemma start_S : forall bs i b, nth_error bs i = Some b -> start_of bs (S i) = start_of bs i + snd b / 4096.
Proof.
  intros bs i b H. unfold start_of. rewrite (firstn_S_nth _ _ _ H), total_app, total_cons. cbn [total_granules map fold_right]. lia.
Qed.
Lemma start_mono : forall bs i j, (i <= j)%nat -> start_of bs i <= start_of bs j.
Proof.
  intros bs i j H. induction H as [|j H IH]; [lia|].
  destruct (nth_error bs j) as [b|] eqn:E.
  - rewrite (start_S _ _ _ E). lia.
  - apply nth_error_None in E. unfold start_of in *. rewrite (firstn_all2 (n := S j)) by lia.
    rewrite (firstn_all2 (n := j)) in IH by lia. exact IH.
Qed.
Lemma start_total : forall bs, start_of bs (length bs) = total_granules bs.
Proof. intros bs. unfold start_of. rewrite firstn_all. reflexivity. Qed.
Lemma start_before : forall bs i j b, (i < j)%nat -> nth_error bs i = Some b -> start_of bs i + snd b / 4096 <= start_of bs j.
Proof. intros bs i j b H Hi. rewrite <- (start_S _ _ _ Hi). apply start_mono. lia. Qed.

Lemma below_zero : forall bs a, (forall b, In b bs -> a <= fst b) -> granules_below bs a = 0.
Proof.
  induction bs as [|b bs IH]; intros a H; [reflexivity|].
  unfold granules_below. cbn [map fold_right]. fold (granules_below bs a).
  rewrite IH by (intros x Hx; apply H; right; exact Hx).
  pose proof (H b (or_introl eq_refl)).
  replace (a - fst b) with 0 by lia. rewrite N.min_0_r. reflexivity.
Qed.
(** The number of granules below an address of bank [i] *)
Lemma below_start : forall bs i b a,
  ascending bs -> Forall bank_ok bs -> nth_error bs i = Some b -> in_bank b a ->
  granules_below bs a = start_of bs i + (a - fst b) / 4096.
Proof.
  induction bs as [|b0 bs IH]; intros i b a Ha Hok Hi Hin; [destruct i; discriminate|].
  unfold granules_below. cbn [map fold_right]. fold (granules_below bs a).
  inversion Hok as [|? ? Hb0 Hbs]; subst.
  destruct i as [|i]; cbn [nth_error] in Hi.
  - injection Hi as <-. rewrite below_zero.
    + unfold in_bank in Hin. rewrite N.min_r by lia. unfold start_of. cbn [firstn total_granules map fold_right]. lia.
    + intros x Hx. pose proof (ascending_head _ _ _ Ha Hx). unfold in_bank in Hin. lia.
  - pose proof (ascending_head _ _ _ Ha (nth_error_In _ _ Hi)). unfold in_bank in Hin.
    rewrite N.min_l by lia.
    rewrite (IH i b a (ascending_tail _ _ Ha) Hbs Hi Hin).
    unfold start_of. cbn [firstn]. rewrite total_cons. lia.
Qed.

Lemma below_S : forall bs a, ascending bs -> Forall bank_ok bs -> dram_granule bs a ->
  granules_below bs (a + 4096) = granules_below bs a + 1.
Proof.
  induction bs as [|b0 bs IH]; intros a Ha Hok [Hal [b [Hb Hin]]]; [destruct Hb|].
  unfold granules_below. cbn [map fold_right]. fold (granules_below bs a). fold (granules_below bs (a + 4096)).
  inversion Hok as [|? ? Hb0 Hbs]; subst.
  destruct Hb as [->|Hb].
  - destruct Hb0 as (_ & _ & B1 & B2). unfold in_bank in Hin.
    apply div_mul4096 in B1, B2, Hal.
    rewrite !(below_zero bs).
    + rewrite !N.min_r by lia. replace (a + 4096 - fst b) with (a - fst b + 1 * 4096) by lia.
      rewrite N.div_add by lia. lia.
    + intros x Hx. pose proof (ascending_head _ _ _ Ha Hx). lia.
    + intros x Hx. pose proof (ascending_head _ _ _ Ha Hx). lia.
  - pose proof (ascending_head _ _ _ Ha Hb). unfold in_bank in Hin.
    rewrite !N.min_l by lia.
    rewrite IH; [lia|exact (ascending_tail _ _ Ha)|exact Hbs|].
    split; [exact Hal|]. exists b. split; assumption.
Qed.
Lemma below_mono : forall bs a a', a <= a' -> granules_below bs a <= granules_below bs a'.
Proof.
  induction bs as [|b bs IH]; intros a a' H; [cbn; lia|].
  unfold granules_below. cbn [map fold_right]. fold (granules_below bs a). fold (granules_below bs a').
  pose proof (IH a a' H).
  assert (N.min (snd b) (a - fst b) / 4096 <= N.min (snd b) (a' - fst b) / 4096) by (apply N.div_le_mono; lia).
  lia.
Qed.

Lemma index_exists : forall bs idx, idx < total_granules bs ->
  exists i b, nth_error bs i = Some b /\ start_of bs i <= idx < start_of bs i + snd b / 4096.
Proof.
  induction bs as [|b0 bs IH]; intros idx H; [cbn in H; lia|].
  rewrite total_cons in H.
  destruct (N.lt_ge_cases idx (snd b0 / 4096)) as [L|L].
  - exists 0%nat, b0. split; [reflexivity|]. unfold start_of. cbn [firstn total_granules map fold_right]. lia.
  - destruct (IH (idx - snd b0 / 4096) ltac:(lia)) as (i & b & Hi & H1).
    exists (S i), b. split; [exact Hi|]. unfold start_of in *. cbn [firstn]. rewrite total_cons. lia.
Qed.

End Lists.

(** ** The layout *)

Fixpoint lay (bs : list dram_bank) (k : N) : list bank :=
  match bs with [] => [] | b :: bs => mkBank (fst b) (snd b) k :: lay bs (k + snd b / 4096) end.

Lemma lay_length : forall bs k, length (lay bs k) = length bs.
Proof. induction bs as [|b bs IH]; intros k; [reflexivity|]. cbn [lay length]. rewrite IH. reflexivity. Qed.
Lemma lay_nth : forall bs k i b, nth_error bs i = Some b ->
  nth_error (lay bs k) i = Some (mkBank (fst b) (snd b) (k + start_of bs i)).
Proof.
  induction bs as [|b0 bs IH]; intros k i b H; [destruct i; discriminate|].
  destruct i as [|i]; cbn [nth_error lay] in *.
  - injection H as <-. f_equal. f_equal. unfold start_of. cbn. lia.
  - rewrite (IH _ _ _ H). f_equal. f_equal. unfold start_of. cbn [firstn]. rewrite total_cons. lia.
Qed.

Section Layout.
Variables (p : plat) (bs : list dram_bank) (w : N).
Hypothesis (Hok : dram_ok w bs) (Hw : w <= 63) (Hn : N.of_nat (length bs) <= p_max_banks p)
  (Ht : total_granules bs <= p_max_granules p) (Hg : p_max_granules p < 2 ^ 63).

Let ly := mkLayout (total_granules bs) (lay bs 0).

Lemma bank_facts : forall i b, nth_error bs i = Some b ->
  fst b <> 0 /\ snd b <> 0 /\ fst b mod 4096 = 0 /\ snd b mod 4096 = 0 /\ fst b + snd b <= 2 ^ 63.
Proof.
  intros i b H. destruct Hok as (_ & A & _ & B). rewrite Forall_forall in A, B.
  apply nth_error_In in H. pose proof (A b H) as (A1 & A2 & A3 & A4). pose proof (B b H) as B1. cbv beta in B1.
  assert (2 ^ w <= 2 ^ 63) by (apply N.pow_le_mono_r; lia). repeat split; auto. lia.
Qed.
Lemma cover_end : forall i b, nth_error bs i = Some b -> start_of bs i + snd b / 4096 <= total_granules bs.
Proof.
  intros i b H. rewrite <- (start_S _ _ _ H), <- start_total. apply start_mono.
  assert (nth_error bs i <> None) by congruence. apply nth_error_Some in H0. lia.
Qed.

(** The outcome of the search for an address *)
Definition addr_res (a v : N) : Prop :=
  (exists i b, nth_error bs i = Some b /\ in_bank b a /\ v = start_of bs i + (a - fst b) / 4096) \/
  (~ dram bs a /\ v = UINT64_MAX).

Lemma search_addr_spec : forall fuel l r a,
  a < 2 ^ 64 -> r < N.of_nat (length bs) -> (l <= r + 1) -> (N.to_nat (r + 1 - l) < fuel)%nat ->
  (forall j b, nth_error bs j = Some b -> N.of_nat j < l -> fst b + snd b <= a) ->
  (forall j b, nth_error bs j = Some b -> r < N.of_nat j -> a < fst b) ->
  exists v, search_addr fuel p (lay bs 0) l r a = BOk v /\ addr_res a v.
Proof.
  induction fuel as [|fuel IH]; intros l r a Ha Hr Hlr Hf Hlo Hhi; [lia|].
  cbn [search_addr]. destruct (N.ltb_spec r l) as [L|L].
  { exists UINT64_MAX. split; [reflexivity|]. right. split; [|reflexivity].
    intros (b & Hb & Hin). apply In_nth_error in Hb. destruct Hb as [j Hj]. unfold in_bank in Hin.
    destruct (N.lt_ge_cases (N.of_nat j) l) as [X|X].
    - pose proof (Hlo j b Hj X). lia.
    - pose proof (Hhi j b Hj ltac:(lia)). lia. }
  set (i := l + (r - l) / 2).
  assert (Hi : l <= i /\ i <= r) by (subst i; pose proof (N.div_mod (r - l) 2); lia).
  clearbody i. destruct Hi as [Hi1 Hi2].
  rewrite (proj2 (N.ltb_lt i (p_max_banks p))) by lia. cbn [negb].
  destruct (nth_error bs (N.to_nat i)) as [b|] eqn:E.
  2:{ apply nth_error_None in E. lia. }
  rewrite (lay_nth _ _ _ _ E). cbn [b_base b_size b_start].
  destruct (bank_facts _ _ E) as (F1 & F2 & F3 & F4 & F5).
  destruct Hok as (_ & _ & Hasc & _).
  destruct (N.ltb_spec a (fst b)) as [A|A].
  { assert (Above : forall j b', nth_error bs j = Some b' -> i <= N.of_nat j -> a < fst b').
    { intros j b' Hj Hij. destruct (N.eq_dec i (N.of_nat j)) as [->|Ne].
      - rewrite Nat2N.id in E. rewrite Hj in E. injection E as ->. exact A.
      - pose proof (Hasc (N.to_nat i) j b b' ltac:(lia) E Hj). lia. }
    destruct (N.eqb_spec i 0) as [Z|Z].
    - exists UINT64_MAX. split; [reflexivity|]. right. split; [|reflexivity].
      intros (b' & Hb & Hin). apply In_nth_error in Hb. destruct Hb as [j Hj]. unfold in_bank in Hin.
      pose proof (Above j b' Hj ltac:(lia)). lia.
    - apply IH; [exact Ha|lia|lia|lia|exact Hlo|].
      intros j b' Hj Hij. apply (Above j b' Hj). lia. }
  assert (W : wrap64 (fst b + snd b + UINT64_MAX) = fst b + snd b - 1).
  { unfold wrap64, UINT64_MAX. replace (fst b + snd b + (2 ^ 64 - 1)) with (fst b + snd b - 1 + 1 * 2 ^ 64) by lia.
    rewrite N.mod_add by lia. apply N.mod_small. lia. }
  rewrite W. destruct (N.ltb_spec (fst b + snd b - 1) a) as [B|B].
  { apply IH; [exact Ha|lia|lia|lia| |exact Hhi].
    intros j b' Hj Hij. destruct (N.eq_dec i (N.of_nat j)) as [->|Ne].
    - rewrite Nat2N.id in E. rewrite Hj in E. injection E as ->. lia.
    - pose proof (Hasc j (N.to_nat i) b' b ltac:(lia) Hj E). lia. }
  eexists. split; [reflexivity|]. left. exists (N.to_nat i), b. split; [exact E|].
  unfold in_bank. split; [lia|]. rewrite N.shiftr_div_pow2. change (2 ^ 12) with 4096.
  unfold wrap64. apply N.mod_small.
  pose proof (cover_end _ _ E).
  assert ((a - fst b) / 4096 < snd b / 4096).
  { apply div_mul4096 in F4. apply N.div_lt_upper_bound; lia. }
  lia.
Qed.

Lemma banks_pos : 0 < N.of_nat (length bs).
Proof. destruct Hok as (A & _). destruct bs; [congruence|cbn [length]; lia]. Qed.

Lemma addr_to_idx_spec : forall a, a < 2 ^ 64 -> exists v, addr_to_idx p ly a = BOk v /\
  ((a mod 4096 = 0 /\ exists i b, nth_error bs i = Some b /\ in_bank b a /\ v = start_of bs i + (a - fst b) / 4096) \/
   (~ dram_granule bs a /\ v = UINT64_MAX)).
Proof.
  intros a Ha. unfold addr_to_idx. destruct (N.eqb_spec (a mod 4096) 0) as [E|E]; cbn [negb].
  2:{ exists UINT64_MAX. split; [reflexivity|]. right. split; [|reflexivity]. intros [H _]. contradiction. }
  unfold ly. cbn [l_banks]. rewrite lay_length. pose proof banks_pos as P.
  rewrite (proj2 (N.ltb_lt _ _) P). cbn [bassert bbind].
  rewrite (proj2 (N.leb_le _ _) Hn). cbn [bassert bbind].
  destruct (search_addr_spec (S (length bs)) 0 (N.of_nat (length bs) - 1) a) as (v & Hv & R);
    [exact Ha|lia|lia|lia|intros j b _ H; lia| |].
  { intros j b Hj H. assert (nth_error bs j <> None) by congruence. apply nth_error_Some in H0. lia. }
  exists v. split; [exact Hv|]. destruct R as [R|[R1 R2]].
  - left. split; assumption.
  - right. split; [|exact R2]. intros [_ H]. contradiction.
Qed.

Lemma addr_to_idx_in : forall a, dram_granule bs a -> addr_to_idx p ly a = BOk (granules_below bs a).
Proof.
  intros a H. pose proof H as [Hal (b & Hb & Hin)]. apply In_nth_error in Hb. destruct Hb as [i Hi].
  destruct (bank_facts _ _ Hi) as (_ & _ & _ & _ & F). unfold in_bank in Hin.
  destruct (addr_to_idx_spec a ltac:(lia)) as (v & -> & [(_ & i' & b' & Hi' & Hin' & ->)|[C _]]); [|contradiction].
  destruct Hok as (_ & A & B & _). rewrite (below_start bs i' b' a B A Hi' Hin'). reflexivity.
Qed.
Lemma addr_to_idx_out : forall a, a < 2 ^ 64 -> ~ dram_granule bs a -> addr_to_idx p ly a = BOk UINT64_MAX.
Proof.
  intros a Ha H. destruct (addr_to_idx_spec a Ha) as (v & -> & [(E & i' & b' & Hi' & Hin' & _)|[_ ->]]); [|reflexivity].
  exfalso. apply H. split; [exact E|]. exists b'. split; [eapply nth_error_In; exact Hi'|exact Hin'].
Qed.

Lemma search_idx_spec : forall fuel l r idx k bk,
  nth_error bs k = Some bk -> start_of bs k <= idx < start_of bs k + snd bk / 4096 ->
  r < N.of_nat (length bs) -> l <= N.of_nat k <= r -> (N.to_nat (r + 1 - l) < fuel)%nat ->
  search_idx fuel p (lay bs 0) l r idx = BOk (fst bk + 4096 * (idx - start_of bs k)).
Proof.
  induction fuel as [|fuel IH]; intros l r idx k bk Hk Hidx Hr Hlr Hf; [lia|].
  cbn [search_idx]. rewrite (proj2 (N.ltb_ge r l)) by lia.
  set (i := l + (r - l) / 2).
  assert (Hi : l <= i /\ i <= r) by (subst i; pose proof (N.div_mod (r - l) 2); lia).
  clearbody i. destruct Hi as [Hi1 Hi2].
  rewrite (proj2 (N.ltb_lt i (p_max_banks p))) by lia. cbn [negb].
  destruct (nth_error bs (N.to_nat i)) as [b|] eqn:E.
  2:{ apply nth_error_None in E. lia. }
  rewrite (lay_nth _ _ _ _ E). cbn [b_base b_size b_start]. rewrite N.add_0_l.
  destruct (bank_facts _ _ E) as (F1 & F2 & F3 & F4 & F5).
  pose proof (cover_end _ _ E) as CE.
  destruct (N.ltb_spec idx (start_of bs (N.to_nat i))) as [A|A].
  { assert (Lt : N.of_nat k < i).
    { destruct (N.lt_ge_cases (N.of_nat k) i) as [X|X]; [exact X|].
      pose proof (start_mono bs (N.to_nat i) k ltac:(lia)). lia. }
    destruct (N.eqb_spec i 0) as [Z|Z]; [lia|].
    apply IH; [exact Hk|exact Hidx|lia|lia|lia]. }
  rewrite N.shiftr_div_pow2. change (2 ^ 12) with 4096.
  assert (P : 0 < snd b / 4096).
  { apply div_mul4096 in F4. destruct (N.eq_dec (snd b / 4096) 0) as [Z|Z]; lia. }
  assert (W : wrap64 (start_of bs (N.to_nat i) + snd b / 4096 + UINT64_MAX) = start_of bs (N.to_nat i) + snd b / 4096 - 1).
  { unfold wrap64, UINT64_MAX. set (q := snd b / 4096) in *. clearbody q. set (s := start_of bs (N.to_nat i)) in *. clearbody s.
    replace (s + q + (2 ^ 64 - 1)) with (s + q - 1 + 1 * 2 ^ 64) by lia.
    rewrite N.mod_add by lia. apply N.mod_small. lia. }
  rewrite W. destruct (N.ltb_spec (start_of bs (N.to_nat i) + snd b / 4096 - 1) idx) as [B|B].
  { assert (Lt : i < N.of_nat k).
    { destruct (N.lt_ge_cases i (N.of_nat k)) as [X|X]; [exact X|].
      destruct (N.eq_dec i (N.of_nat k)) as [Y|Y].
      - subst i. rewrite Nat2N.id in *. rewrite Hk in E. injection E as ->. lia.
      - pose proof (start_before bs k (N.to_nat i) bk ltac:(lia) Hk). lia. }
    apply IH; [exact Hk|exact Hidx|lia|lia|lia]. }
  assert (Ek : i = N.of_nat k).
  { destruct (N.lt_trichotomy i (N.of_nat k)) as [X|[X|X]]; [|exact X|].
    - pose proof (start_before bs (N.to_nat i) k b ltac:(lia) E). lia.
    - pose proof (start_before bs k (N.to_nat i) bk ltac:(lia) Hk). lia. }
  subst i. rewrite Nat2N.id in *. rewrite Hk in E. injection E as ->. f_equal.
  rewrite N.shiftl_mul_pow2. change (2 ^ 12) with 4096.
  apply div_mul4096 in F4. unfold wrap64.
  assert (4096 * (idx - start_of bs k) < snd b) by lia.
  rewrite (N.mod_small ((idx - start_of bs k) * 4096)) by lia. rewrite N.mod_small by lia. lia.
Qed.

Lemma idx_to_addr_spec : forall idx, idx < total_granules bs ->
  exists a, idx_to_addr p ly idx = BOk a /\ dram_granule bs a /\ granules_below bs a = idx.
Proof.
  intros idx H. destruct (index_exists bs idx H) as (k & bk & Hk & Hidx).
  unfold idx_to_addr, ly. cbn [l_banks l_granules]. rewrite lay_length. pose proof banks_pos as P.
  rewrite (proj2 (N.ltb_lt _ _) P). cbn [bassert bbind].
  rewrite (proj2 (N.ltb_lt _ _) H). cbn [bassert bbind].
  assert (Lk : (k < length bs)%nat) by (apply nth_error_Some; congruence).
  rewrite (search_idx_spec _ _ _ _ k bk Hk Hidx) by lia.
  eexists. split; [reflexivity|].
  destruct (bank_facts _ _ Hk) as (F1 & F2 & F3 & F4 & F5).
  apply div_mul4096 in F4.
  assert (Hin : in_bank bk (fst bk + 4096 * (idx - start_of bs k))) by (unfold in_bank; lia).
  split.
  - split.
    + rewrite N.mul_comm, N.mod_add by lia. exact F3.
    + exists bk. split; [eapply nth_error_In; exact Hk|exact Hin].
  - destruct Hok as (_ & A & B & _). rewrite (below_start bs k bk _ B A Hk Hin).
    replace (fst bk + 4096 * (idx - start_of bs k) - fst bk) with ((idx - start_of bs k) * 4096) by lia.
    rewrite N.div_mul by lia. lia.
Qed.

Lemma below_lt : forall a, dram_granule bs a -> granules_below bs a < total_granules bs.
Proof.
  intros a [Hal (b & Hb & Hin)]. apply In_nth_error in Hb. destruct Hb as [i Hi].
  destruct Hok as (_ & A & B & _). rewrite (below_start bs i b a B A Hi Hin).
  pose proof (cover_end _ _ Hi). destruct (bank_facts _ _ Hi) as (F1 & F2 & F3 & F4 & F5).
  unfold in_bank in Hin.
  assert ((a - fst b) / 4096 < snd b / 4096).
  { apply div_mul4096 in F4. apply N.div_lt_upper_bound; lia. }
  lia.
Qed.
Lemma below_inj : forall a a', dram_granule bs a -> dram_granule bs a' ->
  granules_below bs a = granules_below bs a' -> a = a'.
Proof.
  intros a a' H H' E. destruct Hok as (_ & A & B & _).
  pose proof (below_S _ _ B A H). pose proof (below_S _ _ B A H').
  destruct (N.lt_trichotomy a a') as [L|[L|L]]; [|exact L|].
  - assert (a + 4096 <= a').
    { destruct H as [M _], H' as [M' _]. apply div_mul4096 in M, M'. lia. }
    pose proof (below_mono bs _ _ H2). lia.
  - assert (a' + 4096 <= a).
    { destruct H as [M _], H' as [M' _]. apply div_mul4096 in M, M'. lia. }
    pose proof (below_mono bs _ _ H2). lia.
Qed.
Lemma addr_idx_addr : forall a, dram_granule bs a -> idx_to_addr p ly (granules_below bs a) = BOk a.
Proof.
  intros a H. destruct (idx_to_addr_spec _ (below_lt a H)) as (a' & E & D & B).
  rewrite E. f_equal. exact (below_inj _ _ D H B).
Qed.
Lemma below_strict : forall a a', dram_granule bs a -> dram_granule bs a' -> a < a' -> granules_below bs a < granules_below bs a'.
Proof.
  intros a a' H H' L. pose proof (below_mono bs a a' ltac:(lia)).
  destruct (N.eq_dec (granules_below bs a) (granules_below bs a')) as [E|E]; [|lia].
  pose proof (below_inj _ _ H H' E). lia.
Qed.

Lemma find_in : forall a, dram_granule bs a -> find_granule_desc p ly a = BOk (Some (granules_below bs a)).
Proof.
  intros a H. unfold find_granule_desc. pose proof (proj1 H) as M. rewrite M. cbn [N.eqb negb].
  rewrite (addr_to_idx_in a H). cbn [bbind]. pose proof (below_lt a H).
  rewrite (proj2 (N.leb_gt _ _)) by lia. unfold granule_from_idx.
  rewrite (proj2 (N.ltb_lt _ _)) by lia. reflexivity.
Qed.
Lemma find_out : forall a, a < 2 ^ 64 -> ~ dram_granule bs a -> find_granule_desc p ly a = BOk None.
Proof.
  intros a Ha H. unfold find_granule_desc. destruct (N.eqb_spec (a mod 4096) 0) as [E|E]; cbn [negb]; [|reflexivity].
  rewrite (addr_to_idx_out a Ha H). cbn [bbind]. rewrite (proj2 (N.leb_le _ _)); [reflexivity|]. unfold UINT64_MAX. lia.
Qed.
Lemma to_granule : forall a, dram_granule bs a -> addr_to_granule p ly a = BOk (granules_below bs a).
Proof.
  intros a H. unfold addr_to_granule. rewrite (proj1 H). cbn [N.eqb bassert bbind].
  rewrite (addr_to_idx_in a H). cbn [bbind]. pose proof (below_lt a H). unfold granule_from_idx.
  rewrite (proj2 (N.ltb_lt _ _)) by lia. reflexivity.
Qed.

End Layout.
