(** Facts about PlatMap.v: the translation of the runtime context. *)
From Coq Require Import NArith List Bool Lia ZifyBool ZifyN.
From Verif Require Import Bits Xlat SpecXlat XlatDesc XlatTree XlatMap XlatInit XlatCfg PlatMap SpecPlatMap.
Import ListNotations.
Local Open Scope N_scope.

Lemma sub64_cases : forall x y, x < 2 ^ 64 -> y < 2 ^ 64 ->
  (y <= x /\ sub64 x y = x - y) \/ (x < y /\ sub64 x y + y = x + 2 ^ 64).
Proof.
  intros x y Hx Hy. unfold sub64. destruct (N.lt_ge_cases x y) as [L|L].
  - right. split; [exact L|]. unfold wrap64. rewrite N.mod_small by lia. lia.
  - left. split; [exact L|]. unfold wrap64. replace (x + (2 ^ 64 - y)) with (x - y + 1 * 2 ^ 64) by lia.
    rewrite N.mod_add by (intro K; discriminate K). apply N.mod_small. lia.
Qed.

Lemma sub64_lt : forall x y, sub64 x y < 2 ^ 64.
Proof. intros. unfold sub64, wrap64. apply N.mod_lt. intro K. discriminate K. Qed.

Lemma common64 : forall A im p, image64 im -> p < 2 ^ 64 -> Forall region64 (common_regions A im p).
Proof.
  intros A im p (I1 & I2 & I3 & I4 & I5 & I6) P. unfold common_regions, map_flat, map_region.
  repeat constructor; cbn [mm_pa mm_va mm_size]; try assumption; try apply sub64_lt; try reflexivity.
  unfold shared_va, wrap64. apply N.mod_lt. intro K. discriminate K.
Qed.

Lemma ordered_app : forall a b x y, ordered (a ++ b) -> In x a -> In y b -> mm_va x + mm_size x <= mm_va y.
Proof.
  induction a as [|z a IH]; intros b x y O Ix Iy; [destruct Ix|]. cbn [app] in O. inversion O as [|? ? Q1 Q2]; subst.
  destruct Ix as [->|Ix]; [|apply (IH b); assumption].
  rewrite Forall_forall in Q1. apply Q1. apply in_or_app. right. exact Iy.
Qed.

Lemma ordered_right : forall a b, ordered (a ++ b) -> ordered b.
Proof. induction a as [|z a IH]; intros b O; [exact O|]. inversion O; subst. apply IH. assumption. Qed.
Lemma ordered_left : forall a b, ordered (a ++ b) -> ordered a.
Proof.
  induction a as [|z a IH]; intros b O; [constructor|]. inversion O as [|? ? Q1 Q2]; subst. constructor; [|apply (IH b); exact Q2].
  apply Forall_app in Q1. apply Q1.
Qed.

Lemma shifted0_eq : forall l l', Forall2 (shifted 0) l l' -> l' = l.
Proof.
  intros l l' F. induction F as [|r r' l l' (S1 & S2 & S3 & S4 & S5) F IH]; [reflexivity|]. f_equal; [|exact IH].
  destruct r, r'. cbn in *. subst. reflexivity.
Qed.

(** The facts about an accepted list of regions *)
Lemma setup_ok : forall A extra width im p T mem plat nregions cfg st,
  xa_width A <= 52 -> image64 im -> p < 2 ^ 64 -> (forall l, plat = Some l -> Forall region64 l) ->
  plat_cmn_setup A extra width im p T mem plat nregions = POk cfg st ->
  exists l mm', (if nregions =? 0 then Some [] else plat) = Some l /\ nregions <= extra /\
    let mm := merge_regions A im p (firstn (N.to_nat nregions) l) in
    xlat_ctx_cfg_init A false LowRegion mm (2 ^ width) = (mm', inr cfg) /\
    xlat_ctx_init A false cfg T mem = XOk (inr st) /\ Forall region64 mm /\ Forall (fits A (2 ^ width)) mm /\ ordered mm /\
    2 ^ width <= 2 ^ 52.
Proof.
  intros A extra width im p T mem plat nregions cfg st W I P R E. unfold plat_cmn_setup in E.
  destruct (N.ltb_spec extra nregions) as [|LE]; [discriminate|].
  destruct (if nregions =? 0 then Some [] else plat) as [l|] eqn:PL; [|discriminate].
  set (mm := merge_regions A im p (firstn (N.to_nat nregions) l)) in *.
  destruct (xlat_ctx_cfg_init A false LowRegion mm (2 ^ width)) as [mm' [e|cfg']] eqn:C; [discriminate|].
  destruct (xlat_ctx_init A false cfg' T mem) as [[e|st']|] eqn:D; try discriminate.
  assert (cfg' = cfg /\ st' = st) as [-> ->] by (split; congruence). clear E.
  exists l, mm'. split; [reflexivity|]. split; [exact LE|]. cbv zeta. fold mm.
  assert (RL : Forall region64 (firstn (N.to_nat nregions) l)).
  { destruct (N.eqb_spec nregions 0) as [->|]; [constructor|].
    specialize (R l PL). rewrite Forall_forall in R |- *. intros x Ix. apply R. rewrite <- (firstn_skipn (N.to_nat nregions) l).
    apply in_or_app. left. exact Ix. }
  assert (RM : Forall region64 mm).
  { unfold mm, merge_regions. pose proof (common64 A im p I P) as C64.
    destruct (firstn (N.to_nat nregions) l) as [|r q] eqn:Q; [exact C64|].
    destruct (mm_va r <? im_code_start im); apply Forall_app; split; assumption. }
  destruct (cfg_init_facts _ _ _ _ _ _ _ W RM C) as (F1 & F2 & F3 & F4 & F5 & F6 & F7 & F8 & F9 & F10).
  cbn [region_base] in F8. apply shifted0_eq in F8. rewrite F8 in F9, F10.
  split; [exact C|]. split; [exact D|]. split; [exact RM|]. split; [exact F9|]. split; [exact F10|]. apply F7.
Qed.

(** What the common regions ask for *)
Lemma common_expect : forall A im p va w, image64 im -> w <= 2 ^ 52 -> Forall (fits A w) (common_regions A im p) ->
  s1_expect (common_regions A im p) va = image_map im p va.
Proof.
  intros A im p va w (I1 & I2 & I3 & I4 & I5 & I6) W F. unfold common_regions, map_flat, map_region in *.
  inversion F as [|? ? A1 F1]; subst. inversion F1 as [|? ? A2 F2]; subst. inversion F2 as [|? ? A3 F3]; subst.
  inversion F3 as [|? ? A4 F4]; subst. clear F F1 F2 F3 F4.
  destruct A1 as (_ & A1 & _), A2 as (_ & A2 & _), A3 as (_ & A3 & _), A4 as (_ & A4 & _). cbn [mm_va mm_size] in A1, A2, A3, A4.
  destruct (sub64_cases _ _ I2 I1) as [(Q1 & E1)|(Q1 & E1)]; [|clear - Q1 E1 A1 W; lia].
  destruct (sub64_cases _ _ I4 I3) as [(Q2 & E2)|(Q2 & E2)]; [|clear - Q2 E2 A2 W; lia].
  destruct (sub64_cases _ _ I6 I5) as [(Q3 & E3)|(Q3 & E3)]; [|clear - Q3 E3 A3 W; lia].
  rewrite E1, E2, E3 in *.
  assert (E4 : shared_va im = im_rw_end im + 4096).
  { unfold shared_va. apply wrap_small. clear - A3 Q3 W. lia. }
  rewrite E4 in *. unfold s1_expect, image_map, in_region, shared_size. cbn [find mm_va mm_size].
  replace (im_code_start im + (im_code_end im - im_code_start im)) with (im_code_end im) by (clear - Q1; lia).
  replace (im_ro_start im + (im_ro_end im - im_ro_start im)) with (im_ro_end im) by (clear - Q2; lia).
  replace (im_rw_start im + (im_rw_end im - im_rw_start im)) with (im_rw_end im) by (clear - Q3; lia).
  replace (im_rw_end im + 4096 + 4096) with (im_rw_end im + 8192) by (clear; lia).
  destruct ((im_code_start im <=? va) && (va <? im_code_end im)) eqn:B1.
  { cbn [mm_attr mm_pa mm_va]. replace (im_code_start im + (va - im_code_start im)) with va by (clear - B1; lia). reflexivity. }
  destruct ((im_ro_start im <=? va) && (va <? im_ro_end im)) eqn:B2.
  { cbn [mm_attr mm_pa mm_va]. replace (im_ro_start im + (va - im_ro_start im)) with va by (clear - B2; lia). reflexivity. }
  destruct ((im_rw_start im <=? va) && (va <? im_rw_end im)) eqn:B3.
  { cbn [mm_attr mm_pa mm_va]. replace (im_rw_start im + (va - im_rw_start im)) with va by (clear - B3; lia). reflexivity. }
  destruct ((im_rw_end im + 4096 <=? va) && (va <? im_rw_end im + 8192)); reflexivity.
Qed.

Lemma find_app_r : forall (f : mmap_region -> bool) a b, find f (a ++ b) = match find f a with Some r => Some r | None => find f b end.
Proof. intros f a b. induction a as [|x a IH]; [reflexivity|]. cbn [app find]. destruct (f x); [reflexivity|exact IH]. Qed.

Lemma merge_cases : forall A im p plat, let mm := merge_regions A im p plat in
  mm = common_regions A im p ++ plat \/ mm = plat ++ common_regions A im p.
Proof.
  intros A im p plat mm. unfold mm, merge_regions. destruct plat as [|r q]; [left; symmetry; apply app_nil_r|].
  destruct (mm_va r <? im_code_start im); [right|left]; reflexivity.
Qed.

(** No address is in a common region and in one of the platform *)
Lemma apart_all : forall A im p plat va r c, ordered (merge_regions A im p plat) ->
  In r plat -> In c (common_regions A im p) -> in_region r va = true -> in_region c va = true -> False.
Proof.
  intros A im p plat va r c O Ir Ic Hr Hc. unfold in_region in Hr, Hc.
  destruct (merge_cases A im p plat) as [E|E]; rewrite E in O.
  - pose proof (ordered_app _ _ c r O Ic Ir) as L. clear - L Hr Hc. lia.
  - pose proof (ordered_app _ _ r c O Ir Ic) as L. clear - L Hr Hc. lia.
Qed.

Lemma common_not_transient : forall A im p c, In c (common_regions A im p) -> (mm_attr c mod 16 =? 3) = false.
Proof. intros A im p c I. cbn [common_regions In] in I. repeat (destruct I as [<-|I]; [reflexivity|]). destruct I. Qed.

Lemma merge_expect : forall A im p plat va, ordered (merge_regions A im p plat) ->
  s1_expect (merge_regions A im p plat) va =
  match s1_expect (common_regions A im p) va with Some x => Some x | None => s1_expect plat va end.
Proof.
  intros A im p plat va O.
  assert (AP := fun r c => apart_all A im p plat va r c O).
  assert (NT := common_not_transient A im p).
  destruct (merge_cases A im p plat) as [E|E]; rewrite E; unfold s1_expect; rewrite find_app_r.
  - destruct (find (fun r => in_region r va) (common_regions A im p)) as [c|] eqn:FC; [|reflexivity].
    apply find_some in FC. rewrite (NT c (proj1 FC)). reflexivity.
  - destruct (find (fun r => in_region r va) (common_regions A im p)) as [c|] eqn:FC.
    + apply find_some in FC. rewrite (NT c (proj1 FC)).
      destruct (find (fun r => in_region r va) plat) as [r|] eqn:FP; [|rewrite (NT c (proj1 FC)); reflexivity].
      apply find_some in FP. exfalso. apply (AP r c); (apply FP || apply FC).
    + destruct (find (fun r => in_region r va) plat) as [r|]; reflexivity.
Qed.

Lemma fits_common : forall A im p plat w, Forall (fits A w) (merge_regions A im p plat) -> Forall (fits A w) (common_regions A im p).
Proof.
  intros A im p plat w F. destruct (merge_cases A im p plat) as [E|E]; rewrite E in F; apply Forall_app in F; apply F.
Qed.
Lemma ordered_common : forall A im p plat, ordered (merge_regions A im p plat) -> ordered (common_regions A im p).
Proof.
  intros A im p plat O. destruct (merge_cases A im p plat) as [E|E]; rewrite E in O; [apply (ordered_left _ _ O)|apply (ordered_right _ _ O)].
Qed.

Lemma cmn_map_all : forall A extra width im p T mem plat nregions cfg st mu va,
  image64 im -> p < 2 ^ 64 -> (forall l, plat = Some l -> Forall region64 l) -> t_tables T + 4096 * t_num T <= 2 ^ 48 ->
  plat_cmn_setup A extra width im p T mem plat nregions = POk cfg st ->
  setup_mmu_cfg A cfg T = Some mu -> va < 2 ^ 64 ->
  s1_translate (xa_lpa2 A) mu (x_mem st) va =
  match image_map im p va with
  | Some x => Some x
  | None => match plat with Some l => s1_expect (firstn (N.to_nat nregions) l) va | None => None end
  end.
Proof.
  intros A extra width im p T mem plat nregions cfg st mu va I P R TL E M Hva.
  destruct (mmu_facts _ _ _ _ M) as (W & _).
  destruct (setup_ok _ _ _ _ _ _ _ _ _ _ _ W I P R E) as (l & mm' & E1 & E2 & E3 & E4 & E5 & E6 & E7 & E8). 
  rewrite (translate_all _ _ _ _ _ _ _ _ _ _ _ _ va E5 TL E3 E4 M Hva).
  rewrite (merge_expect _ _ _ _ _ E7), (common_expect A im p va _ I E8 (fits_common _ _ _ _ _ E6)).
  destruct (image_map im p va); [reflexivity|].
  destruct (N.eqb_spec nregions 0) as [->|]; [|rewrite E1; reflexivity].
  cbn [N.to_nat firstn]. destruct plat; reflexivity.
Qed.

Lemma arm64 : forall A console, (forall b, console = Some b -> b < 2 ^ 64) -> forall l, Some (arm_plat_regions A console) = Some l -> Forall region64 l.
Proof.
  intros A console H l E. assert (l = arm_plat_regions A console) by congruence. subst l. clear E. unfold arm_plat_regions.
  destruct console as [b|]; [specialize (H b eq_refl)|]; cbn [mm_size mm_attr mm_gran map_flat map_region];
    repeat constructor; cbn [mm_pa mm_va mm_size map_flat map_region]; (assumption || reflexivity).
Qed.

(** The order of what an accepted setup maps *)
Lemma arm_order : forall A width im p T mem console cfg st, xa_width A <= 52 ->
  image64 im -> p < 2 ^ 64 -> (forall b, console = Some b -> b < 2 ^ 64) ->
  arm_setup A width im p T mem console = POk cfg st ->
  let base := match console with Some b => b | None => 0 end in
  in_order im /\
  (base + 4096 <= im_code_start im \/ im_rw_end im + 8192 <= base).
Proof.
  intros A width im p T mem console cfg st W (I1 & I2 & I3 & I4 & I5 & I6) P B E base.
  destruct (setup_ok _ _ _ _ _ _ _ _ _ _ _ W (conj I1 (conj I2 (conj I3 (conj I4 (conj I5 I6))))) P (arm64 A console B) E)
    as (l & mm' & E1 & E2 & E3 & E4 & E5 & E6 & E7 & E8). clear E3 E4 E5.
  change (Some (arm_plat_regions A console) = Some l) in E1.
  assert (l = arm_plat_regions A console) by congruence. subst l. clear E1.
  assert (FR : firstn (N.to_nat 1) (arm_plat_regions A console) = [map_flat A base 4096 (N.lor MT_DEVICE MT_RW)]) by (unfold base; destruct console; reflexivity).
  rewrite FR in E6, E7. pose proof (fits_common _ _ _ _ _ E6) as FC. pose proof (ordered_common _ _ _ _ E7) as OC.
  unfold common_regions, map_flat, map_region in FC.
  inversion FC as [|? ? A1 F1]; subst. inversion F1 as [|? ? A2 F2]; subst. inversion F2 as [|? ? A3 F3]; subst.
  clear FC F1 F2 F3. destruct A1 as (O1 & A1 & _), A2 as (O2 & A2 & _), A3 as (O3 & A3 & _).
  apply mo_pos in O1, O2, O3. cbn [mm_va mm_size] in A1, A2, A3, O1, O2, O3.
  destruct (sub64_cases _ _ I2 I1) as [(Q1 & S1)|(Q1 & S1)]; [|clear - Q1 S1 A1 E8; lia].
  destruct (sub64_cases _ _ I4 I3) as [(Q2 & S2)|(Q2 & S2)]; [|clear - Q2 S2 A2 E8; lia].
  destruct (sub64_cases _ _ I6 I5) as [(Q3 & S3)|(Q3 & S3)]; [|clear - Q3 S3 A3 E8; lia].
  assert (SV : shared_va im = im_rw_end im + 4096).
  { unfold shared_va. apply wrap_small. rewrite S3 in A3. clear - A3 Q3 E8. lia. }
  rewrite S1 in *. rewrite S2 in *. rewrite S3 in *.
  unfold common_regions, map_flat, map_region in OC. rewrite S1, S2, S3 in OC.
  inversion OC as [|? ? G1 OC2]; subst. inversion OC2 as [|? ? G2 OC3]; subst. clear OC OC2 OC3.
  apply Forall_inv in G1, G2. cbn [mm_va mm_size] in G1, G2.
  split; [unfold in_order; clear - Q1 Q2 Q3 O1 O2 O3 G1 G2; lia|].
  destruct (merge_cases A im p [map_flat A base 4096 (N.lor MT_DEVICE MT_RW)]) as [E1'|E2']; [rewrite E1' in E7|rewrite E2' in E7].
  - right. pose proof (ordered_app _ _ (map_region A p (shared_va im) shared_size MT_RW_DATA) (map_flat A base 4096 (N.lor MT_DEVICE MT_RW)) E7) as L.
    specialize (L ltac:(cbn [common_regions In]; tauto) ltac:(left; reflexivity)). cbn [map_flat map_region mm_va mm_size] in L.
    rewrite SV in L. unfold shared_size in L. clear - L. lia.
  - left. inversion E7 as [|? ? G _]; subst. apply Forall_inv in G. cbn [map_flat map_region mm_va mm_size] in G. exact G.
Qed.

Lemma arm_map_all : forall A width im p T mem base cfg st mu va,
  image64 im -> p < 2 ^ 64 -> base < 2 ^ 64 -> t_tables T + 4096 * t_num T <= 2 ^ 48 ->
  arm_setup A width im p T mem (Some base) = POk cfg st ->
  setup_mmu_cfg A cfg T = Some mu -> va < 2 ^ 64 ->
  s1_translate (xa_lpa2 A) mu (x_mem st) va = console_map im p base va.
Proof.
  intros A width im p T mem base cfg st mu va I P B TL E M Hva.
  assert (BB : forall b, Some base = Some b -> b < 2 ^ 64) by (intros b K; assert (b = base) by congruence; subst b; exact B).
  destruct (mmu_facts _ _ _ _ M) as (W & _).
  destruct (arm_order _ _ _ _ _ _ _ _ _ W I P BB E) as (OR & AP). cbv iota zeta in AP.
  rewrite (cmn_map_all _ _ _ _ _ _ _ _ _ _ _ _ va I P (arm64 A (Some base) BB) TL E M Hva).
  change (firstn (N.to_nat 1) (arm_plat_regions A (Some base))) with [mkMm base base 4096 (N.lor MT_DEVICE MT_RW) (default_gran A)].
  unfold console_map, s1_expect, in_region. cbn [find mm_va mm_size].
  destruct ((base <=? va) && (va <? base + 4096)) eqn:BV.
  - replace (image_map im p va) with (@None (N * s1_perm)).
    2:{ unfold image_map. destruct OR as (O1 & O2 & O3 & O4 & O5).
        repeat match goal with |- context[if ?b then _ else _] => replace b with false by (clear - BV O1 O2 O3 O4 O5 AP; lia) end. reflexivity. }
    cbn [mm_attr mm_pa mm_va]. replace (base + (va - base)) with va by (clear - BV; lia). reflexivity.
  - destruct (image_map im p va); reflexivity.
Qed.

(** ** Layouts that are accepted *)
Definition good (A : xarch) (w : N) (r : mmap_region) : Prop :=
  mm_pa r mod 4096 = 0 /\ mm_va r mod 4096 = 0 /\ mm_size r mod 4096 = 0 /\ 0 < mm_size r /\
  mm_va r + mm_size r <= w /\ mm_pa r + mm_size r <= 2 ^ xa_width A /\ mm_gran r = default_gran A.

(** The region [x] can follow the regions [done] *)
Definition follows (done : list mmap_region) (x : mmap_region) : Prop :=
  Forall (fun j => mm_va j + mm_size j <= mm_va x /\ (mm_pa j + mm_size j <= mm_pa x \/ mm_pa x + mm_size x <= mm_pa j)) done.

Lemma high_bits : forall x, x < 2 ^ 52 -> N.land x (BIT_MASK 63 52) = 0.
Proof.
  intros x Hx. replace (BIT_MASK 63 52) with (N.shiftl (N.ones 12) 52) by reflexivity. apply N.bits_inj. intro n.
  rewrite N.land_spec, N.bits_0. destruct (N.lt_ge_cases n 52) as [L|L].
  - rewrite (N.shiftl_spec_low _ _ _ L). apply andb_false_r.
  - replace x with (x mod 2 ^ 52) by (apply N.mod_small; exact Hx). rewrite N.mod_pow2_bits_high by exact L. reflexivity.
Qed.

Lemma end_small : forall x y, 0 < y -> x + y <= 2 ^ 52 -> wrap64 (x + y + (2 ^ 64 - 1)) = x + y - 1.
Proof. intros x y Hy H. apply wrap_over; lia. Qed.

Lemma validate_good : forall A w done x, xa_width A <= 52 -> w <= 2 ^ 48 -> Forall (good A w) done -> good A w x -> follows done x ->
  validate_one A LowRegion 0 w done x = (x, None).
Proof.
  intros A w done x W VW G (X1 & X2 & X3 & X4 & X5 & X6 & X7) FO.
  assert (PW : 2 ^ xa_width A <= 2 ^ 52) by (apply pow2_le; exact W).
  unfold validate_one. cbv zeta.
  rewrite (wrap_small (mm_va x + mm_size x)) by (clear - X5 VW; lia).
  rewrite !high_bits by (clear - X5 VW X4; lia). cbn [N.eqb negb orb].
  rewrite !page_aligned_mod, X1, X2, X3. cbn [N.eqb negb orb].
  f_equal.
  replace (negb (mm_gran x =? block_size 3) && negb (mm_gran x =? block_size 2)
             && negb (mm_gran x =? block_size 1) && negb (mm_gran x =? block_size 0)) with false
    by (rewrite X7; unfold default_gran, max_block_height; destruct (xa_lpa2 A); reflexivity).
  rewrite (end_small (mm_va x) (mm_size x) X4) by (clear - X5 VW; lia).
  rewrite (end_small (mm_pa x) (mm_size x) X4) by (clear - X6 PW; lia).
  replace ((mm_pa x + mm_size x - 1 <? mm_pa x) || (mm_va x + mm_size x - 1 <? mm_va x)) with false by (clear - X4; lia).
  replace (w <? mm_va x + mm_size x - 1) with false by (clear - X5; lia).
  replace (max_pa A <? mm_pa x + mm_size x - 1) with false by (unfold max_pa; clear - X6; lia).
  destruct done as [|prev done]; [reflexivity|].
  pose proof (Forall_inv FO) as (L1 & _). pose proof (Forall_inv G) as (P1 & P2 & P3 & P4 & P5 & P6 & P7).
  rewrite (end_small (mm_va prev) (mm_size prev) P4) by (clear - P5 VW; lia).
  replace (mm_va x <? mm_va prev) with false by (clear - L1; lia).
  replace (mm_va x <=? mm_va prev + mm_size prev - 1) with false by (clear - L1 P4; lia).
  destruct (transient x); [reflexivity|].
  replace (existsb (pa_clash x) (prev :: done)) with false; [reflexivity|].
  symmetry. apply not_true_is_false. intro K. apply existsb_exists in K. destruct K as (j & Ij & K). unfold follows in FO.
  rewrite Forall_forall in FO, G. destruct (FO j Ij) as (_ & D). destruct (G j Ij) as (J1 & J2 & J3 & J4 & J5 & J6 & J7).
  unfold pa_clash in K. cbv zeta in K. rewrite (end_small (mm_pa x) (mm_size x) X4) in K by (clear - X6 PW; lia).
  rewrite (end_small (mm_pa j) (mm_size j) J4) in K by (clear - J6 PW; lia).
  apply andb_true_iff in K. destruct K as (_ & K). clear - K D X4 J4. lia.
Qed.

Lemma validate_good5 : forall A w a b c d e, xa_width A <= 52 -> w <= 2 ^ 48 ->
  good A w a -> good A w b -> good A w c -> good A w d -> good A w e ->
  follows [a] b -> follows [b; a] c -> follows [c; b; a] d -> follows [d; c; b; a] e ->
  validate_from A LowRegion 0 w [] [a; b; c; d; e] = ([a; b; c; d; e], None).
Proof.
  intros A w a b c d e W V Ga Gb Gc Gd Ge F1 F2 F3 F4. cbn [validate_from].
  assert (N0 : Forall (good A w) []) by constructor. assert (Na := Forall_cons _ Ga N0). assert (Nb := Forall_cons _ Gb Na).
  assert (Nc := Forall_cons _ Gc Nb). assert (Nd := Forall_cons _ Gd Nc).
  rewrite (validate_good A w [] a W V N0 Ga (Forall_nil _)), (validate_good A w [a] b W V Na Gb F1),
    (validate_good A w [b; a] c W V Nb Gc F2), (validate_good A w [c; b; a] d W V Nc Gd F3), (validate_good A w [d; c; b; a] e W V Nd Ge F4).
  reflexivity.
Qed.

Lemma sub_mod : forall x y, y <= x -> x mod 4096 = 0 -> y mod 4096 = 0 -> (x - y) mod 4096 = 0.
Proof.
  intros x y L Hx Hy. apply N.mod_divide in Hx, Hy; try discriminate. apply N.mod_divide; [discriminate|]. apply N.divide_sub_r; assumption.
Qed.

Lemma sub64_le : forall x y, y <= x -> x < 2 ^ 64 -> sub64 x y = x - y.
Proof. intros x y L H. destruct (sub64_cases x y H ltac:(lia)) as [(_ & E)|(E & _)]; [exact E|lia]. Qed.

Lemma accepts_all : forall A width im p T mem base e, xa_width A <= 52 -> 16 <= width <= 48 ->
  good_layout width (xa_width A) im p base -> t_tables T + 4096 * t_num T <= 2 ^ 48 ->
  arm_setup A width im p T mem (Some base) = PErr e -> t_num T = 0 \/ t_tables T mod 4096 <> 0.
Proof.
  intros A width im p T mem base e W WD
    (M1 & M2 & M3 & M4 & M5 & M6 & (O1 & O2 & O3 & O4 & O5) & V1 & V2 & S1 & S2 & S3 & B1 & B2 & B3 & B4 & B5) TL E.
  assert (WL : 2 ^ width <= 2 ^ 48) by (apply pow2_le; apply WD).
  assert (WG : 2 ^ 16 <= 2 ^ width) by (apply pow2_le; apply WD).
  set (cr := map_flat A base 4096 (N.lor MT_DEVICE MT_RW)).
  assert (Gcr : good A (2 ^ width) cr).
  { unfold good, cr. cbn [map_flat map_region mm_pa mm_va mm_size mm_gran]. repeat split; (assumption || reflexivity). }
  assert (E1 : sub64 (im_code_end im) (im_code_start im) = im_code_end im - im_code_start im).
  { apply sub64_le; clear - O1 O2 O3 O4 O5 V1 WL; lia. }
  assert (E2 : sub64 (im_ro_end im) (im_ro_start im) = im_ro_end im - im_ro_start im).
  { apply sub64_le; clear - O1 O2 O3 O4 O5 V1 WL; lia. }
  assert (E3 : sub64 (im_rw_end im) (im_rw_start im) = im_rw_end im - im_rw_start im).
  { apply sub64_le; clear - O1 O2 O3 O4 O5 V1 WL; lia. }
  assert (E4 : shared_va im = im_rw_end im + 4096).
  { unfold shared_va. apply wrap_small. clear - V1 WL. lia. }
  assert (MS : (im_rw_end im + 4096) mod 4096 = 0).
  { replace (im_rw_end im + 4096) with (im_rw_end im + 1 * 4096) by lia. rewrite N.mod_add by discriminate. exact M6. }
  assert (CR : common_regions A im p =
    [map_flat A (im_code_start im) (im_code_end im - im_code_start im) MT_CODE; map_flat A (im_ro_start im) (im_ro_end im - im_ro_start im) MT_RO_DATA;
     map_flat A (im_rw_start im) (im_rw_end im - im_rw_start im) MT_RW_DATA; map_region A p (im_rw_end im + 4096) 4096 MT_RW_DATA]).
  { unfold common_regions. rewrite E1, E2, E3, E4. reflexivity. }
  assert (VF : validate_from A LowRegion 0 (2 ^ width) [] (merge_regions A im p [cr]) = (merge_regions A im p [cr], None)).
  { assert (N1 := sub_mod _ _ (N.lt_le_incl _ _ O1) M2 M1). assert (N2 := sub_mod _ _ (N.lt_le_incl _ _ O3) M4 M3).
    assert (N3 := sub_mod _ _ (N.lt_le_incl _ _ O5) M6 M5).
    set (r1 := map_flat A (im_code_start im) (im_code_end im - im_code_start im) MT_CODE) in *.
    set (r2 := map_flat A (im_ro_start im) (im_ro_end im - im_ro_start im) MT_RO_DATA) in *.
    set (r3 := map_flat A (im_rw_start im) (im_rw_end im - im_rw_start im) MT_RW_DATA) in *.
    set (r4 := map_region A p (im_rw_end im + 4096) 4096 MT_RW_DATA) in *.
    assert (G1 : good A (2 ^ width) r1).
    { apply (conj M1), (conj M1), (conj N1). clear - O1 O2 O3 O4 O5 V1 V2. unfold r1. cbn [map_flat map_region mm_pa mm_va mm_size mm_gran].
      split; [lia|]. split; [lia|]. split; [lia|reflexivity]. }
    assert (G2 : good A (2 ^ width) r2).
    { apply (conj M3), (conj M3), (conj N2). clear - O1 O2 O3 O4 O5 V1 V2. unfold r2. cbn [map_flat map_region mm_pa mm_va mm_size mm_gran].
      split; [lia|]. split; [lia|]. split; [lia|reflexivity]. }
    assert (G3 : good A (2 ^ width) r3).
    { apply (conj M5), (conj M5), (conj N3). clear - O1 O2 O3 O4 O5 V1 V2. unfold r3. cbn [map_flat map_region mm_pa mm_va mm_size mm_gran].
      split; [lia|]. split; [lia|]. split; [lia|reflexivity]. }
    assert (G4 : good A (2 ^ width) r4).
    { apply (conj S1), (conj MS), (conj (eq_refl : 4096 mod 4096 = 0)). clear - V1 S2. unfold r4. cbn [map_region mm_pa mm_va mm_size mm_gran].
      split; [lia|]. split; [lia|]. split; [lia|reflexivity]. }
    clear M1 M2 M3 M4 M5 M6 N1 N2 N3 MS S1 B1.
    assert (P12 : follows [r1] r2).
    { constructor; [|constructor]. unfold r1, r2. cbn [map_flat map_region mm_pa mm_va mm_size]. clear - O1 O2. split; [|left]; lia. }
    assert (P23 : follows [r2; r1] r3).
    { constructor; [|constructor; [|constructor]]; unfold r1, r2, r3; cbn [map_flat map_region mm_pa mm_va mm_size]; clear - O1 O2 O3 O4; (split; [|left]; lia). }
    assert (P34 : follows [r3; r2; r1] r4).
    { constructor; [|constructor; [|constructor; [|constructor]]]; unfold r1, r2, r3, r4; cbn [map_flat map_region mm_pa mm_va mm_size];
        clear - O1 O2 O3 O4 O5 S3; lia. }
    unfold merge_regions. rewrite CR. change (mm_va cr) with base.
    destruct (N.ltb_spec base (im_code_start im)) as [L|L]; cbn [app]; apply validate_good5; try assumption.
    - constructor; [|constructor]. unfold r1, cr. cbn [map_flat map_region mm_pa mm_va mm_size]. clear - L B4 O1 O2 O3 O4 O5. lia.
    - inversion P12; subst. constructor; [assumption|]. constructor; [|constructor]. unfold r2, cr. cbn [map_flat map_region mm_pa mm_va mm_size].
      clear - L B4 O1 O2 O3 O4 O5. lia.
    - constructor; [apply (Forall_inv P23)|]. constructor; [apply (Forall_inv (Forall_inv_tail P23))|]. constructor; [|constructor].
      unfold r3, cr. cbn [map_flat map_region mm_pa mm_va mm_size]. clear - L B4 O1 O2 O3 O4 O5. lia.
    - constructor; [apply (Forall_inv P34)|]. constructor; [apply (Forall_inv (Forall_inv_tail P34))|].
      constructor; [apply (Forall_inv (Forall_inv_tail (Forall_inv_tail P34)))|]. constructor; [|constructor].
      unfold r4, cr. cbn [map_region map_flat mm_pa mm_va mm_size]. clear - L B4 B5 O1 O2 O3 O4 O5. lia.
    - constructor; [|constructor; [|constructor; [|constructor; [|constructor]]]]; unfold r1, r2, r3, r4, cr;
        cbn [map_region map_flat mm_pa mm_va mm_size]; clear - L B4 B5 O1 O2 O3 O4 O5; lia. }
  assert (R64 : Forall region64 (merge_regions A im p [cr])).
  { assert (PW : 2 ^ xa_width A <= 2 ^ 52) by (apply pow2_le; exact W).
    assert (CC : Forall region64 (common_regions A im p)).
    { apply common64; [unfold image64|]; clear - O1 O2 O3 O4 O5 V1 WL S2 PW; lia. }
    assert (CB : region64 cr) by (unfold cr, region64; cbn [map_flat map_region mm_pa mm_va mm_size]; clear - B2 WL; lia).
    unfold merge_regions. destruct (mm_va cr <? im_code_start im); [constructor; assumption|].
    apply Forall_app. split; [exact CC|]. constructor; [exact CB|constructor]. }
  unfold arm_setup, plat_cmn_setup in E. cbn [N.ltb N.compare Pos.compare Pos.compare_cont N.eqb] in E.
  change (firstn (N.to_nat 1) (arm_plat_regions A (Some base))) with [cr] in E. unfold xlat_ctx_cfg_init in E.
  assert (AL : N.land (2 ^ width) 4095 = 0).
  { change 4095 with (N.ones 12). rewrite N.land_ones. apply N.mod_divide; [discriminate|].
    replace width with (width - 12 + 12) by (clear - WD; lia). rewrite N.pow_add_r. apply N.divide_factor_r. }
  rewrite AL in E. cbn [N.eqb negb] in E.
  replace ((2 ^ (if xa_lpa2 A then 52 else 48) <? 2 ^ width) || (2 ^ width <? 2 ^ 16)) with false in E
    by (clear - WL WG; destruct (xa_lpa2 A); lia).
  rewrite VF in E.
  assert (NE : match merge_regions A im p [cr] with [] => true | _ => false end = false).
  { unfold merge_regions. destruct (mm_va cr <? im_code_start im); reflexivity. }
  cbv zeta in E. rewrite NE in E.
  pose proof (ctx_init_facts A false LowRegion (merge_regions A im p [cr]) (2 ^ width) (merge_regions A im p [cr])
    (mkCfg (2 ^ width) (merge_regions A im p [cr]) 0 (base_height (2 ^ width)) LowRegion) T false mem W R64) as CI.
  unfold xlat_ctx_cfg_init in CI. rewrite AL in CI. cbn [N.eqb negb] in CI.
  replace ((2 ^ (if xa_lpa2 A then 52 else 48) <? 2 ^ width) || (2 ^ width <? 2 ^ 16)) with false in CI
    by (clear - WL WG; destruct (xa_lpa2 A); lia).
  cbv zeta in CI. rewrite VF, NE in CI. specialize (CI eq_refl TL).
  destruct (xlat_ctx_init A false _ T mem) as [[e'|st]|]; try discriminate E.
  destruct CI as [(CI & _)|(CI & _)]; [exact CI|discriminate CI].
Qed.

Lemma fit_all : forall A extra width im p T mem plat nregions cfg st, xa_width A <= 52 ->
  image64 im -> p < 2 ^ 64 -> (forall l, plat = Some l -> Forall region64 l) ->
  plat_cmn_setup A extra width im p T mem plat nregions = POk cfg st ->
  N.of_nat (length (c_mmap cfg)) <= 4 + extra /\ (nregions <> 0 -> plat <> None).
Proof.
  intros A extra width im p T mem plat nregions cfg st W I P R E.
  destruct (setup_ok _ _ _ _ _ _ _ _ _ _ _ W I P R E) as (l & mm' & E1 & E2 & E3 & _ & E5 & _).
  destruct (cfg_init_facts _ _ _ _ _ _ _ W E5 E3) as (_ & F2 & _ & _ & _ & _ & _ & F8 & _).
  cbn [region_base] in F8. apply shifted0_eq in F8. split.
  - rewrite F2, F8. pose proof (firstn_le_length (N.to_nat nregions) l) as L.
    assert (LN : (length (firstn (N.to_nat nregions) l) <= N.to_nat nregions)%nat) by (rewrite firstn_length; apply PeanoNat.Nat.le_min_l).
    destruct (merge_cases A im p (firstn (N.to_nat nregions) l)) as [Q|Q]; rewrite Q, app_length; cbn [common_regions length]; clear - LN E2; lia.
  - intros NZ K. destruct (N.eqb_spec nregions 0); [contradiction|]. congruence.
Qed.
