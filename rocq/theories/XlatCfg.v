(** What xlat_ctx_cfg_init accepts, and the translation from end to end. *)
From Coq Require Import NArith ZArith List Bool Lia ZifyBool ZifyN ZifyNat.
From Verif Require Import Bits Xlat SpecXlat XlatDesc XlatTree XlatMap XlatInit.
Import ListNotations.
Local Open Scope N_scope.

Definition region_base (region : va_region) (va_size : N) : N :=
  match region with LowRegion => 0 | HighRegion => 2 ^ 64 - va_size end.

(** The region as the configuration keeps it *)
Definition shifted (base : N) (r r' : mmap_region) : Prop :=
  mm_va r = base + mm_va r' /\ mm_pa r' = mm_pa r /\ mm_size r' = mm_size r /\ mm_attr r' = mm_attr r /\ mm_gran r' = mm_gran r.

Lemma page_aligned_mod : forall x, page_aligned x = (x mod 4096 =? 0).
Proof. intro. unfold page_aligned. change 4095 with (N.ones 12). rewrite N.land_ones. reflexivity. Qed.

Definition fits (A : xarch) (va_size : N) (mm : mmap_region) : Prop :=
  mm_ok mm /\ mm_va mm + mm_size mm <= va_size /\ mm_pa mm + mm_size mm <= 2 ^ xa_width A.

Lemma wrap_case : forall x, x < 2 ^ 65 -> (x < 2 ^ 64 /\ wrap64 x = x) \/ (2 ^ 64 <= x /\ wrap64 x = x - 2 ^ 64).
Proof.
  intros x Hx. destruct (N.lt_ge_cases x (2 ^ 64)) as [L|L].
  - left. split; [exact L|apply wrap_small; exact L].
  - right. split; [exact L|]. apply wrap_over; change (2 ^ 65) with (2 * 2 ^ 64) in Hx; lia.
Qed.

Lemma wrap_pred : forall x y, x < 2 ^ 64 -> y < 2 ^ 64 ->
  (x + y = 0 /\ wrap64 (x + y + (2 ^ 64 - 1)) = 2 ^ 64 - 1) \/
  (0 < x + y <= 2 ^ 64 /\ wrap64 (x + y + (2 ^ 64 - 1)) = x + y - 1) \/
  (2 ^ 64 < x + y /\ wrap64 (x + y + (2 ^ 64 - 1)) = x + y - 1 - 2 ^ 64).
Proof.
  intros x y Hx Hy. destruct (N.eq_dec (x + y) 0) as [E|E]; [left; split; [exact E|rewrite E; reflexivity]|right].
  destruct (N.lt_ge_cases (2 ^ 64) (x + y)) as [L|L].
  - right. split; [exact L|]. unfold wrap64.
    replace (x + y + (2 ^ 64 - 1)) with (x + y - 1 - 2 ^ 64 + 2 * 2 ^ 64) by lia.
    rewrite N.mod_add by (intro K; discriminate K). apply N.mod_small. lia.
  - left. split; [lia|]. apply wrap_over; lia.
Qed.

Lemma validate_one_ok : forall A region va_size done mm mm',
  region64 mm -> xa_width A <= 52 -> va_size mod 4096 = 0 -> 0 < va_size <= 2 ^ 52 ->
  validate_one A region (region_base region va_size) va_size done mm = (mm', None) ->
  shifted (region_base region va_size) mm mm' /\ fits A va_size mm' /\
  match done with prev :: _ => mm_ok prev -> mm_va prev + mm_size prev <= mm_va mm' | [] => True end.
Proof.
  intros A region va_size done mm mm' (R1 & R2 & R3) W VA VL E. unfold validate_one in E.
  set (base := region_base region va_size) in *. cbv zeta in E.
  match type of E with (if ?b then _ else _) = _ => destruct b eqn:EARLY end; [discriminate|].
  apply pair_equal_spec in E. destruct E as [E1 E2].
  assert (SH : shifted base mm mm').
  { rewrite <- E1. destruct region; [repeat split; unfold base; cbn [region_base]; lia|].
    repeat split. cbn [mm_va]. lia. }
  rewrite E1 in E2. clear E1 EARLY. destruct SH as (S1 & S2 & S3 & S4 & S5).
  assert (PW : 2 ^ xa_width A <= 2 ^ 52) by (apply pow2_le; exact W).
  assert (PP : 0 < 2 ^ xa_width A) by apply pow2_pos.
  destruct (negb (page_aligned (mm_pa mm)) || negb (page_aligned (mm_va mm')) || negb (page_aligned (mm_size mm))) eqn:PG; [discriminate|].
  rewrite !page_aligned_mod in PG.
  destruct (negb (mm_gran mm =? block_size 3) && _ && _ && _); [discriminate|].
  match type of E2 with (if ?b then _ else _) = _ => destruct b eqn:C1 end; [discriminate|].
  match type of E2 with (if ?b then _ else _) = _ => destruct b eqn:C2 end; [discriminate|].
  match type of E2 with (if ?b then _ else _) = _ => destruct b eqn:C3 end; [discriminate|].
  assert (VB : mm_va mm' < 2 ^ 64) by (clear - S1 R2; lia).
  apply orb_false_iff in C1. destruct C1 as [C1a C1b].
  apply N.ltb_ge in C1a, C1b, C2, C3. unfold max_pa in C3.
  assert (A1 : mm_pa mm mod 4096 = 0 /\ mm_va mm' mod 4096 = 0 /\ mm_size mm mod 4096 = 0).
  { clear - PG. repeat split; apply N.eqb_eq; destruct (mm_pa mm mod 4096 =? 0), (mm_va mm' mod 4096 =? 0), (mm_size mm mod 4096 =? 0);
      (reflexivity || discriminate). }
  destruct A1 as (A1 & A2 & A3).
  assert (PAF : 0 < mm_size mm /\ mm_pa mm + mm_size mm <= 2 ^ xa_width A).
  { set (w := 2 ^ xa_width A) in *. clearbody w. clear - R1 R3 C1a C3 PW PP.
    destruct (wrap_pred (mm_pa mm) (mm_size mm) R1 R3) as [[Q1 Q2]|[[Q1 Q2]|[Q1 Q2]]]; rewrite Q2 in *; clear Q2; lia. }
  destruct PAF as [SZ PAF].
  assert (VAF : mm_va mm' + mm_size mm <= va_size).
  { destruct region.
    - clear - C1b C2 VB R3 SZ VA A2 A3 VL S1. unfold base in S1. cbn [region_base] in S1. rewrite S1 in *. rewrite N.add_0_l in *.
      destruct (wrap_pred (mm_va mm') (mm_size mm) VB R3) as [[Q1 Q2]|[[Q1 Q2]|[Q1 Q2]]]; rewrite Q2 in *; clear Q2; lia.
    - clear - C1b C2 VB R3 SZ VL S1. destruct (wrap_case (mm_va mm' + mm_size mm)) as [[Q1 Q2]|[Q1 Q2]]; [|rewrite Q2 in *; lia|rewrite Q2 in *; lia].
      change (2 ^ 65) with (2 * 2 ^ 64). lia. }
  assert (OK : mm_ok mm').
  { split; rewrite ?S2, ?S3; try assumption; [clear - VAF VL; lia|]. clear - PAF PW. lia. }
  split; [repeat split; assumption|]. split; [split; [exact OK|rewrite S2, S3; split; assumption]|].
  destruct done as [|prev done]; [exact Logic.I|]. intros [p1 p2 p3 p4 p5 p6].
  destruct (mm_va mm' <? mm_va prev) eqn:D1; [discriminate|]. apply N.ltb_ge in D1.
  match type of E2 with (if ?b then _ else _) = _ => destruct b eqn:D2 end; [discriminate|]. apply N.leb_gt in D2.
  rewrite (wrap_over _ (mm_va prev + mm_size prev - 1)) in D2 by (clear - p3 p4; lia). clear - D2 p3. lia.
Qed.

Lemma FOP_snoc : forall (R : mmap_region -> mmap_region -> Prop) l x, ForallOrdPairs R l -> Forall (fun a => R a x) l -> ForallOrdPairs R (l ++ [x]).
Proof.
  intros R l x F. induction F as [|a l Q F IH]; intro G; cbn [app].
  - constructor; constructor.
  - inversion G; subst. constructor; [|apply IH; assumption]. apply Forall_app. split; [exact Q|]. constructor; [assumption|constructor].
Qed.

Lemma ordered_end : forall l x y, ordered (l ++ [x]) -> mm_ok x -> mm_va x + mm_size x <= mm_va y -> ordered ((l ++ [x]) ++ [y]).
Proof.
  intros l x y O X L. apply FOP_snoc; [exact O|]. apply Forall_app. split; [|constructor; [exact L|constructor]].
  apply Forall_forall. intros a Ia. assert (mm_va a + mm_size a <= mm_va x).
  { clear - O Ia. induction l as [|z l IH]; [destruct Ia|]. inversion O; subst. destruct Ia as [->|Ia]; [|apply IH; assumption].
    rewrite Forall_forall in H1. apply H1. apply in_or_app. right. left. reflexivity. }
  lia.
Qed.

Lemma validate_all : forall A region va_size, xa_width A <= 52 -> va_size mod 4096 = 0 -> 0 < va_size <= 2 ^ 52 ->
  forall rest done l, Forall region64 rest -> Forall (fits A va_size) done -> ordered (rev done) ->
  validate_from A region (region_base region va_size) va_size done rest = (l, None) ->
  exists rest', l = rev done ++ rest' /\ Forall2 (shifted (region_base region va_size)) rest rest' /\
                Forall (fits A va_size) l /\ ordered l.
Proof.
  intros A region va_size W VA VL. induction rest as [|mm rest IH]; intros done l R F O E; cbn [validate_from] in E.
  - injection E as <-. exists []. rewrite app_nil_r. repeat split; [constructor|apply Forall_rev; exact F|exact O].
  - inversion R as [|? ? R1 R2]; subst.
    destruct (validate_one A region (region_base region va_size) va_size done mm) as [mm' [e|]] eqn:V; [discriminate|].
    destruct (validate_one_ok A region va_size done mm mm' R1 W VA VL V) as (S1 & S2 & S3).
    destruct (IH (mm' :: done) l R2) as (rest' & Q1 & Q2 & Q3 & Q4).
    + constructor; assumption.
    + cbn [rev]. destruct done as [|prev done]; [constructor; constructor|]. cbn [rev] in *.
      inversion F as [|? ? F1 F2]; subst. apply ordered_end; [exact O|apply F1|apply S3; apply F1].
    + exact E.
    + exists (mm' :: rest'). cbn [rev] in Q1. rewrite <- app_assoc in Q1. cbn [app] in Q1. repeat split; try assumption.
      constructor; assumption.
Qed.

Lemma base_height_le : forall v, (base_height v <= 4)%nat.
Proof. intro v. unfold base_height. repeat (match goal with |- context[if ?b then _ else _] => destruct b end); lia. Qed.
Lemma base_height_fits : forall v, v <= 2 ^ 52 -> v <= table_entries (base_height v) * block_size (base_height v).
Proof.
  intros v Hv. unfold base_height.
  destruct (N.ltb_spec (2 ^ 48) v); [change (v <= 2 ^ 52); exact Hv|].
  destruct (N.ltb_spec (2 ^ 39) v); [change (v <= 2 ^ 48); assumption|].
  destruct (N.ltb_spec (2 ^ 30) v); [change (v <= 2 ^ 39); assumption|].
  destruct (N.ltb_spec (2 ^ 21) v); [change (v <= 2 ^ 30); assumption|].
  change (v <= 2 ^ 21). assumption.
Qed.
Lemma base_height_pow : forall n, 16 <= n <= 52 -> N.to_nat ((n - 13) / 9) = base_height (2 ^ n).
Proof.
  intros n Hn. unfold base_height.
  assert (P : forall k, (2 ^ k <? 2 ^ n) = (k <? n)).
  { intro k. apply eq_iff_eq_true. rewrite !N.ltb_lt. rewrite <- N.pow_lt_mono_r_iff by reflexivity. reflexivity. }
  rewrite !P.
  repeat match goal with |- context[if ?k <? n then _ else _] => destruct (N.ltb_spec k n) end; lia.
Qed.

Lemma cfg_init_facts : forall A inited region mm va_size mm' cfg, xa_width A <= 52 -> Forall region64 mm ->
  xlat_ctx_cfg_init A inited region mm va_size = (mm', inr cfg) ->
  c_va_size cfg = va_size /\ c_mmap cfg = mm' /\ c_base_va cfg = region_base region va_size /\ c_height cfg = base_height va_size /\
  c_region cfg = region /\ va_size mod 4096 = 0 /\ 2 ^ 16 <= va_size <= 2 ^ 52 /\
  Forall2 (shifted (region_base region va_size)) mm mm' /\ Forall (fits A va_size) mm' /\ ordered mm'.
Proof.
  intros A inited region mm va_size mm' cfg W R E. unfold xlat_ctx_cfg_init in E.
  change 4095 with (N.ones 12) in E. rewrite N.land_ones in E. change (2 ^ 12) with 4096 in E.
  destruct (N.eqb_spec (va_size mod 4096) 0) as [VA|]; [|discriminate]. cbn [negb] in E.
  destruct ((2 ^ (if xa_lpa2 A then 52 else 48) <? va_size) || (va_size <? 2 ^ 16)) eqn:L; [discriminate|].
  destruct inited; [discriminate|]. cbv zeta in E.
  assert (VL : 2 ^ 16 <= va_size <= 2 ^ 52).
  { clear - L. destruct (xa_lpa2 A); lia. }
  assert (B : match region with LowRegion => 0 | HighRegion => wrap64 (2 ^ 64 - va_size) end = region_base region va_size).
  { destruct region; [reflexivity|]. cbn [region_base]. apply wrap_small. clear - VL. lia. }
  rewrite B in E. destruct mm as [|x mm]; [discriminate|].
  destruct (validate_from A region (region_base region va_size) va_size [] (x :: mm)) as [l [e|]] eqn:V; [discriminate|].
  apply pair_equal_spec in E. destruct E as [-> E]. injection E as <-. cbn [c_va_size c_mmap c_base_va c_height c_region].
  destruct (validate_all A region va_size W VA ltac:(clear - VL; lia) (x :: mm) [] mm' R) as (rest' & Q1 & Q2 & Q3 & Q4);
    [constructor|constructor|exact V|]. cbn [rev app] in Q1. subst rest'.
  repeat split; (assumption || apply VL).
Qed.

Lemma find_shifted : forall base l l' va, Forall2 (shifted base) l l' -> base <= va ->
  s1_expect l va = s1_expect l' (va - base).
Proof.
  intros base l l' va F Hb. unfold s1_expect. induction F as [|r r' l l' (S1 & S2 & S3 & S4 & S5) F IH]; [reflexivity|]. cbn [find].
  assert (IR : in_region r va = in_region r' (va - base)) by (unfold in_region; rewrite S3; lia).
  rewrite <- IR. destruct (in_region r va) eqn:I; [|exact IH]. rewrite S4, S2. 
  destruct (mm_attr r mod 16 =? 3); [reflexivity|]. do 3 f_equal. lia.
Qed.

Lemma expect_none : forall l va, (forall r, In r l -> in_region r va = false) -> s1_expect l va = None.
Proof.
  intros l va H. unfold s1_expect. replace (find (fun r => in_region r va) l) with (@None mmap_region); [reflexivity|].
  induction l as [|r l IH]; [reflexivity|]. cbn [find]. rewrite (H r) by (left; reflexivity). apply IH. intros. apply H. right. assumption.
Qed.

(** The result of xlat_ctx_init *)
Lemma ctx_init_facts : forall A inited region mm va_size mm' cfg T inited2 mem, xa_width A <= 52 -> Forall region64 mm ->
  xlat_ctx_cfg_init A inited region mm va_size = (mm', inr cfg) ->
  t_tables T + 4096 * t_num T <= 2 ^ 48 ->
  match xlat_ctx_init A inited2 cfg T mem with
  | XPanic => why A T mm' (base_height va_size)
  | XOk (inl e) => (t_num T = 0 \/ t_tables T mod 4096 <> 0) /\ e = X_EINVAL \/ inited2 = true /\ e = X_EALREADY
  | XOk (inr st) => tbls_ok T /\ (exists own, inv A T mm' (base_height va_size) mm' own st) /\
      forall a, ~ (t_tables T <= a < t_tables T + 4096 * t_num T) -> x_mem st a = mem a
  end.
Proof.
  intros A inited region mm va_size mm' cfg T inited2 mem W R E TL.
  destruct (cfg_init_facts _ _ _ _ _ _ _ W R E) as (F1 & F2 & F3 & F4 & F5 & F6 & F7 & F8 & F9 & F10).
  unfold xlat_ctx_init.
  destruct (N.eqb_spec (t_num T) 0) as [Z|Z]; [left; split; [left; exact Z|reflexivity]|].
  destruct (N.eqb_spec (t_tables T mod 4096) 0) as [AL|AL]; cbn [negb]; [|left; split; [right; exact AL|reflexivity]].
  destruct inited2; [right; split; reflexivity|].
  assert (HT : tbls_ok T) by (split; assumption).
  assert (R1 := regions_all A T mm' (base_height va_size) HT (base_height_le _)).
  specialize (R1 ltac:(intros m I; rewrite Forall_forall in F9; destruct (F9 m I) as (G1 & G2 & G3); split; [exact G1|];
    pose proof (base_height_fits va_size (proj2 F7)) as BF; clear - G2 BF; lia)).
  specialize (R1 mm' [] _ _ (incl_refl _) F10 (init_inv A T mm' (base_height va_size) mem ltac:(clear - Z; lia))).
  rewrite F2, F4. destruct (map_regions A T (base_height va_size) mm' (mkXst (clear_tables T mem) 1)) as [[st ok]|]; [|exact R1].
  destruct R1 as (-> & R2 & R3). split; [exact HT|]. split; [exact R2|].
  intros a Ha. rewrite R3 by exact Ha. cbn [x_mem]. unfold clear_tables.
  destruct ((t_tables T <=? a) && (a <? t_tables T + 4096 * t_num T)) eqn:C; [|reflexivity]. exfalso. apply Ha. clear - C. lia.
Qed.

Lemma mmu_facts : forall A cfg T mu, setup_mmu_cfg A cfg T = Some mu ->
  xa_width A <= 52 /\ 2 ^ xa_width A <= pa_limit A /\ mu_region mu = c_region cfg /\ mu_txsz mu = 64 - ctz (c_va_size cfg) /\
  mu_ttbr mu = match c_region cfg with HighRegion => N.ldiff (N.land (t_tables T) (MASK 47 1)) 1 | LowRegion => N.lor (N.land (t_tables T) (MASK 47 1)) 1 end.
Proof.
  intros A cfg T mu E. unfold setup_mmu_cfg in E. cbv zeta in E.
  assert (Q : forall k j, N.land (max_pa A) (BIT_MASK j k) = 0 -> k <= j -> xa_width A <= k).
  { intros k j H Hj. destruct (N.le_gt_cases (xa_width A) k) as [|G]; [assumption|]. exfalso.
    assert (B := f_equal (fun z => N.testbit z k) H). cbv beta in B. rewrite N.bits_0, N.land_spec, testbit_bitmask in B.
    unfold max_pa in B. rewrite <- N.pred_sub, <- N.ones_equiv, testbit_ones in B. lia. }
  destruct (N.eqb_spec (N.land (max_pa A) (BIT_MASK 63 52)) 0) as [C1|]; [|discriminate]. cbn [negb] in E.
  apply Q in C1; [|lia].
  destruct (negb (N.land (max_pa A) (BIT_MASK 51 48) =? 0) && negb (xa_lpa2 A)) eqn:C2; [discriminate|].
  injection E as <-. cbn [mu_region mu_txsz mu_ttbr]. split; [exact C1|]. split; [|repeat split].
  unfold pa_limit. destruct (xa_lpa2 A); [apply pow2_le; exact C1|]. cbn [negb] in C2. rewrite andb_true_r in C2.
  apply pow2_le. destruct (N.eqb_spec (N.land (max_pa A) (BIT_MASK 51 48)) 0) as [C3|]; [|discriminate]. apply Q in C3; [exact C3|lia].
Qed.

Lemma ctz_pow : forall n, ctz (2 ^ n) = n.
Proof.
  intro n. induction n as [|n IH] using N.peano_ind; [reflexivity|]. rewrite N.pow_succ_r'.
  destruct (2 ^ n) as [|p] eqn:E; [pose proof (pow2_pos n); lia|]. change (2 * N.pos p) with (N.pos p~0). unfold ctz in *. cbn [pos_ctz]. lia.
Qed.

Lemma ttbr_base : forall (lpa2 : bool) t x, t mod 4096 = 0 -> t < 2 ^ 48 ->
  x = N.ldiff (N.land t (MASK 47 1)) 1 \/ x = N.lor (N.land t (MASK 47 1)) 1 ->
  x / 2 ^ 12 mod 2 ^ 36 * 2 ^ 12 + (if lpa2 then x / 4 mod 16 * 2 ^ 48 else 0) = t.
Proof.
  intros lpa2 t x Ht Hl Hx.
  assert (X : forall n, N.testbit x n = if n =? 0 then N.testbit x 0 else N.testbit t n).
  { intro n. destruct (N.eqb_spec n 0) as [->|Hn]; [reflexivity|].
    assert (B1 : N.testbit 1 n = false) by (change 1 with (2 ^ 0); rewrite testbit_pow2; lia).
    assert (N.testbit (N.land t (MASK 47 1)) n = N.testbit t n).
    { rewrite N.land_spec, testbit_mask. destruct (N.lt_ge_cases n 48) as [L|L].
      - replace ((1 <=? n) && (n <? 1 + 47)) with true by lia. apply andb_true_r.
      - rewrite (testbit_false_lt t 48 n) by assumption. reflexivity. }
    destruct Hx as [-> | ->]; [rewrite N.ldiff_spec|rewrite N.lor_spec]; rewrite H, B1; [apply andb_true_r|apply orb_false_r]. }
  assert (P1 : x / 2 ^ 12 mod 2 ^ 36 * 2 ^ 12 = t).
  { apply N.bits_inj. intro n. rewrite mul_testbit, div_mod_testbit. destruct (N.leb_spec 12 n) as [L|L]; cbn [andb].
    - rewrite N.sub_add by exact L. rewrite X. destruct (N.eqb_spec n 0); [lia|]. destruct (N.ltb_spec (n - 12) 36); [reflexivity|].
      cbn [andb]. symmetry. apply (testbit_false_lt t 48); [exact Hl|lia].
    - symmetry. apply (testbit_low_aligned t 12); [exact Ht|exact L]. }
  assert (P2 : x / 4 mod 16 = 0).
  { change 4 with (2 ^ 2). change 16 with (2 ^ 4). apply N.bits_inj. intro n. rewrite div_mod_testbit, N.bits_0.
    destruct (N.ltb_spec n 4); [|reflexivity]. cbn [andb]. rewrite X. destruct (N.eqb_spec (n + 2) 0); [lia|].
    apply (testbit_low_aligned t 12); [exact Ht|lia]. }
  rewrite P1, P2. destruct lpa2; lia.
Qed.

Lemma translate_all : forall A inited region mm n mm' cfg T inited2 mem st mu va,
  Forall region64 mm -> t_tables T + 4096 * t_num T <= 2 ^ 48 -> 
  xlat_ctx_cfg_init A inited region mm (2 ^ n) = (mm', inr cfg) ->
  xlat_ctx_init A inited2 cfg T mem = XOk (inr st) ->
  setup_mmu_cfg A cfg T = Some mu -> va < 2 ^ 64 ->
  s1_translate (xa_lpa2 A) mu (x_mem st) va = s1_expect mm va.
Proof.
  intros A inited region mm n mm' cfg T inited2 mem st mu va R TL E1 E2 E3 Hva.
  destruct (mmu_facts _ _ _ _ E3) as (W & PL & M1 & M2 & M3).
  destruct (cfg_init_facts _ _ _ _ _ _ _ W R E1) as (F1 & F2 & F3 & F4 & F5 & F6 & F7 & F8 & F9 & F10).
  pose proof (ctx_init_facts _ _ _ _ _ _ _ T inited2 mem W R E1 TL) as CI. rewrite E2 in CI.
  destruct CI as (HT & (own & TR & O0 & LK) & _).
  rewrite F1, ctz_pow in M2. rewrite F5 in M1, M3.
  assert (Hn : 16 <= n <= 52).
  { split; apply (N.pow_le_mono_r_iff 2); (reflexivity || apply F7). }
  assert (W64 : 64 - mu_txsz mu = n) by (rewrite M2; clear - Hn; lia).
  unfold s1_translate. rewrite W64, base_height_pow by exact Hn.
  rewrite (ttbr_base (xa_lpa2 A) (t_tables T) (mu_ttbr mu)).
  2:{ apply HT. }
  2:{ destruct HT as [_ HT2]. pose proof (tr_next _ _ _ _ _ TR) as NX. clear - HT2 NX. lia. }
  2:{ rewrite M3. destruct region; [right|left]; reflexivity. }
  assert (SIZE : 2 ^ n <= 512 * block_size (base_height (2 ^ n))).
  { pose proof (base_height_fits (2 ^ n) (proj2 F7)) as BF. pose proof (entries_le (base_height (2 ^ n)) (base_height_le _)) as EL.
    pose proof (N.mul_le_mono_r _ _ (block_size (base_height (2 ^ n))) (proj2 EL)) as ML. clear - BF ML. lia. }
  assert (WK : forall off, off < 2 ^ n -> s1_walk (xa_lpa2 A) (x_mem st) (base_height (2 ^ n)) (t_tables T) off = s1_expect mm' off).
  { intros off Ho. specialize (LK off ltac:(clear - Ho SIZE; lia)). unfold s1_expect.
    destruct (find (fun r => in_region r off) mm') as [r|] eqn:FD.
    - apply find_some in FD. rewrite Forall_forall in F9. destruct (F9 r (proj1 FD)) as (G1 & G2 & G3).
      apply (walk_mapped A r); [exact G1|clear - G3 PL; lia|exact LK].
    - apply walk_none. exact LK. }
  assert (FO : forall r, In r mm' -> forall off, 2 ^ n <= off -> in_region r off = false).
  { intros r I off Ho. rewrite Forall_forall in F9. destruct (F9 r I) as (G1 & G2 & G3). unfold in_region. clear - G2 Ho. lia. }
  rewrite M1. destruct region; cbn [region_base] in F8.
  - rewrite (find_shifted 0 mm mm' va F8) by lia. rewrite N.sub_0_r.
    destruct (N.ltb_spec va (2 ^ n)) as [L|L].
    + rewrite N.mod_small by exact L. apply WK. exact L.
    + symmetry. apply expect_none. intros r I. apply FO; assumption.
  - destruct (N.leb_spec (2 ^ 64 - 2 ^ n) va) as [L|L].
    + rewrite (find_shifted _ mm mm' va F8) by exact L.
      assert (MD : va mod 2 ^ n = va - (2 ^ 64 - 2 ^ n)).
      { assert (P : 2 ^ 64 = 2 ^ (64 - n) * 2 ^ n) by (rewrite <- N.pow_add_r; f_equal; clear - Hn; lia).
        assert (P1 : 0 < 2 ^ (64 - n)) by apply pow2_pos.
        assert (P2 : 2 ^ 64 - 2 ^ n = (2 ^ (64 - n) - 1) * 2 ^ n) by (rewrite P, N.mul_sub_distr_r, N.mul_1_l; reflexivity).
        replace va with (va - (2 ^ 64 - 2 ^ n) + (2 ^ (64 - n) - 1) * 2 ^ n) at 1 by (rewrite <- P2; clear - L; lia).
        rewrite N.mod_add by (pose proof (pow2_pos n) as PN; clear - PN; lia). apply N.mod_small. clear - L Hva F7. lia. }
      rewrite MD. apply WK. clear - L Hva F7. lia.
    + symmetry. apply expect_none. intros r I.
      assert (exists r', shifted (2 ^ 64 - 2 ^ n) r r').
      { clear - F8 I. induction F8 as [|a b l l' S F IH]; [destruct I|]. destruct I as [->|I]; [exists b; exact S|apply IH; exact I]. }
      destruct H as (r' & S1 & _). unfold in_region. clear - S1 L. lia.
Qed.

Lemma init_result_all : forall A inited region mm va_size mm' cfg T inited2 mem, xa_width A <= 52 -> Forall region64 mm ->
  xlat_ctx_cfg_init A inited region mm va_size = (mm', inr cfg) ->
  t_tables T + 4096 * t_num T <= 2 ^ 48 ->
  match xlat_ctx_init A inited2 cfg T mem with
  | XPanic =>
      (exists r, In r mm /\ mm_attr r mod 16 <> 0 /\ mm_attr r mod 16 <> 2 /\ mm_attr r mod 16 <> 3) \/
      forall L, (forall h v, (h < c_height cfg)%nat -> table_useful (c_mmap cfg) h v -> In (h, v) L) -> t_num T <= N.of_nat (length L)
  | XOk (inl e) => (t_num T = 0 \/ t_tables T mod 4096 <> 0) /\ e = X_EINVAL \/ inited2 = true /\ e = X_EALREADY
  | XOk (inr st) => forall a, ~ (t_tables T <= a < t_tables T + 4096 * t_num T) -> x_mem st a = mem a
  end.
Proof.
  intros A inited region mm va_size mm' cfg T inited2 mem W R E TL.
  destruct (cfg_init_facts _ _ _ _ _ _ _ W R E) as (F1 & F2 & F3 & F4 & F5 & F6 & F7 & F8 & F9 & F10).
  pose proof (ctx_init_facts _ _ _ _ _ _ _ T inited2 mem W R E TL) as CI.
  destruct (xlat_ctx_init A inited2 cfg T mem) as [[e|st]|]; [exact CI|apply CI|].
  assert (NB : (exists r, In r mm' /\ bad_type r) -> exists r, In r mm /\ bad_type r).
  { intros (r' & I & B). clear - F8 I B. induction F8 as [|a b l l' S F IH]; [destruct I|]. destruct I as [->|I].
    - exists a. split; [left; reflexivity|]. unfold bad_type in *. destruct S as (_ & _ & _ & S & _). rewrite <- S. exact B.
    - destruct (IH I) as (r & I2 & B2). exists r. split; [right; exact I2|exact B2]. }
  destruct CI as [CI|CI]; [left; apply NB; exact CI|right].
  intros L HL. rewrite F2, F4 in HL. destruct (N.le_gt_cases (t_num T) (N.of_nat (length L))) as [|G]; [assumption|]. exfalso.
  apply (enough A T mm' (base_height va_size) L); [exact HL|exact G|exact CI].
Qed.

Lemma validate_shape : forall A region base va_size rest done l,
  validate_from A region base va_size done rest = (l, None) -> exists rest', l = rev done ++ rest'.
Proof.
  intros A region base va_size. induction rest as [|mm rest IH]; intros done l E; cbn [validate_from] in E.
  - injection E as <-. exists []. symmetry. apply app_nil_r.
  - destruct (validate_one A region base va_size done mm) as [mm' [e|]]; [discriminate|].
    destruct (IH _ _ E) as [rest' ->]. cbn [rev]. rewrite <- app_assoc. eexists. reflexivity.
Qed.

Lemma validate_clash : forall A region base va_size done mm mm', validate_one A region base va_size done mm = (mm', None) ->
  transient mm = false -> forall r, In r done -> pa_clash mm r = false.
Proof.
  intros A region base va_size done mm mm' E TM r I. unfold validate_one in E. cbv zeta in E.
  match type of E with (if ?b then _ else _) = _ => destruct b end; [discriminate|].
  apply pair_equal_spec in E. destruct E as [_ E].
  repeat match type of E with (if ?b then _ else _) = _ => destruct b eqn:?; [discriminate|] end.
  destruct done as [|prev done]; [destruct I|].
  match type of E with (if ?b then _ else _) = _ => destruct b; [discriminate|] end.
  match type of E with (if ?b then _ else _) = _ => destruct b; [discriminate|] end.
  rewrite TM in E. destruct (existsb (pa_clash mm) (prev :: done)) eqn:X; [discriminate|].
  destruct (pa_clash mm r) eqn:C; [|reflexivity]. rewrite <- X. symmetry. apply existsb_exists. exists r. split; assumption.
Qed.

(** What the check of the physical addresses guarantees *)
Lemma validate_pa : forall A region va_size, xa_width A <= 52 -> va_size mod 4096 = 0 -> 0 < va_size <= 2 ^ 52 ->
  forall rest done l, Forall region64 rest -> Forall (fits A va_size) done ->
  validate_from A region (region_base region va_size) va_size done rest = (l, None) ->
  forall i j r1 r2, (i < j)%nat -> nth_error l i = Some r1 -> nth_error l j = Some r2 -> (length done <= j)%nat ->
  forall pa, backs r1 pa -> backs r2 pa -> mm_pa r2 < mm_pa r1 /\ mm_pa r1 + mm_size r1 < mm_pa r2 + mm_size r2.
Proof.
  intros A region va_size W VA VL. induction rest as [|mm rest IH]; intros done l R F E i j r1 r2 Hij N1 N2 Hj pa B1 B2; cbn [validate_from] in E.
  - injection E as <-. exfalso. assert (j < length (rev done))%nat by (apply nth_error_Some; congruence). rewrite rev_length in H. lia.
  - inversion R as [|? ? R1 R2]; subst.
    destruct (validate_one A region (region_base region va_size) va_size done mm) as [mm' [e|]] eqn:V; [discriminate|].
    destruct (validate_one_ok A region va_size done mm mm' R1 W VA VL V) as (S1 & S2 & S3).
    destruct (Nat.eq_dec j (length done)) as [Ej|Ej].
    2:{ apply (IH (mm' :: done) l R2 ltac:(constructor; assumption) E i j r1 r2 Hij N1 N2 ltac:(cbn [length]; lia) pa B1 B2). }
    destruct (validate_shape _ _ _ _ _ _ _ E) as (rest' & Q1). cbn [rev] in Q1. rewrite <- app_assoc in Q1. cbn [app] in Q1. subst l.
    rewrite nth_error_app2 in N2 by (rewrite rev_length; lia). rewrite rev_length, Ej, Nat.sub_diag in N2. injection N2 as <-.
    rewrite nth_error_app1 in N1 by (rewrite rev_length; lia). apply nth_error_In in N1. apply in_rev in N1.
    destruct S1 as (_ & S1a & S1b & S1c & _).
    assert (TM : transient mm = false).
    { unfold transient. rewrite mt_type_mod. destruct B2 as [B2 _]. rewrite S1c in B2. apply N.eqb_neq. exact B2. }
    pose proof (validate_clash _ _ _ _ _ _ _ V TM r1 N1) as C. unfold pa_clash in C. cbv zeta in C.
    assert (T1 : transient r1 = false).
    { unfold transient. rewrite mt_type_mod. apply N.eqb_neq. apply B1. }
    rewrite T1 in C. cbn [negb andb] in C. rewrite Forall_forall in F. destruct (F r1 N1) as ([m1 m2 m3 m4 m5 m6] & _ & _).
    destruct S2 as ([k1 k2 k3 k4 k5 k6] & _ & _). rewrite S1a, S1b in *.
    rewrite (wrap_over _ (mm_pa mm + mm_size mm - 1)), (wrap_over _ (mm_pa r1 + mm_size r1 - 1)) in C by (clear - k3 k6 m3 m6; lia).
    destruct B1 as [_ B1]. destruct B2 as [_ B2]. rewrite S1a, S1b in B2. clear - C B1 B2 k3 m3. lia.
Qed.

Lemma pa_overlap_all : forall A inited region mm va_size mm' cfg, xa_width A <= 52 -> Forall region64 mm ->
  xlat_ctx_cfg_init A inited region mm va_size = (mm', inr cfg) ->
  forall i j r1 r2 pa, (i < j)%nat -> nth_error mm i = Some r1 -> nth_error mm j = Some r2 -> backs r1 pa -> backs r2 pa ->
  mm_pa r2 < mm_pa r1 /\ mm_pa r1 + mm_size r1 < mm_pa r2 + mm_size r2.
Proof.
  intros A inited region mm va_size mm' cfg W R E i j r1 r2 pa Hij N1 N2 B1 B2.
  destruct (cfg_init_facts _ _ _ _ _ _ _ W R E) as (F1 & F2 & F3 & F4 & F5 & F6 & F7 & F8 & F9 & F10).
  unfold xlat_ctx_cfg_init in E.
  destruct (negb (N.land va_size 4095 =? 0)); [discriminate|].
  match type of E with (if ?b then _ else _) = _ => destruct b; [discriminate|] end.
  destruct inited; [discriminate|]. cbv zeta in E.
  assert (B : match region with LowRegion => 0 | HighRegion => wrap64 (2 ^ 64 - va_size) end = region_base region va_size).
  { destruct region; [reflexivity|]. cbn [region_base]. apply wrap_small. clear - F7. lia. }
  rewrite B in E. destruct mm as [|x mm]; [discriminate|].
  destruct (validate_from A region (region_base region va_size) va_size [] (x :: mm)) as [l [e|]] eqn:V; [discriminate|].
  apply pair_equal_spec in E. destruct E as [-> _].
  assert (NTH : forall k r, nth_error (x :: mm) k = Some r -> exists r', nth_error mm' k = Some r' /\ shifted (region_base region va_size) r r').
  { clear - F8. revert F8. generalize (x :: mm). intros l0 F. induction F as [|a b l l' S F IH]; intros [|k] r H; try discriminate.
    - injection H as <-. exists b. split; [reflexivity|exact S].
    - apply IH. exact H. }
  destruct (NTH i r1 N1) as (r1' & Q1 & (_ & S1 & S2 & S3 & _)). destruct (NTH j r2 N2) as (r2' & Q2 & (_ & S4 & S5 & S6 & _)).
  pose proof (validate_pa A region va_size W F6 ltac:(clear - F7; lia) (x :: mm) [] mm' R ltac:(constructor) V i j r1' r2' Hij Q1 Q2 ltac:(cbn [length]; lia) pa) as P.
  unfold backs in P. rewrite S1, S2, S3, S4, S5, S6 in P. apply P; assumption.
Qed.

Lemma wxor_all : forall A inited region mm n mm' cfg T inited2 mem st mu va pa p,
  Forall region64 mm -> t_tables T + 4096 * t_num T <= 2 ^ 48 ->
  xlat_ctx_cfg_init A inited region mm (2 ^ n) = (mm', inr cfg) ->
  xlat_ctx_init A inited2 cfg T mem = XOk (inr st) ->
  setup_mmu_cfg A cfg T = Some mu -> va < 2 ^ 64 ->
  s1_translate (xa_lpa2 A) mu (x_mem st) va = Some (pa, p) ->
  p_pexec p = true -> p_write p = false /\ p_device p = false.
Proof.
  intros A inited region mm n mm' cfg T inited2 mem st mu va pa p R TL E1 E2 E3 Hva E P.
  rewrite (translate_all _ _ _ _ _ _ _ _ _ _ _ _ _ R TL E1 E2 E3 Hva) in E. unfold s1_expect in E.
  destruct (find (fun r => in_region r va) mm) as [r|]; [|discriminate].
  destruct (mm_attr r mod 16 =? 3); [discriminate|]. injection E as <- <-.
  unfold perm_of_attr in *. cbn [p_pexec p_write p_device] in *.
  destruct (mm_attr r mod 16 =? 0), (N.testbit (mm_attr r) 4); try discriminate. split; reflexivity.
Qed.
