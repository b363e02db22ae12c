(** Slot buffers: the code refines the slots of SpecSlots. *)
From Coq Require Import NArith ZArith List Bool Lia ZifyBool ZifyN ZifyNat.
From Verif Require Import Bits Xlat SpecXlat SpecSlots XlatDesc XlatTree XlatMap XlatInit XlatCfg XlatDyn XlatDyn2.
Import ListNotations.
Local Open Scope N_scope.

Section Slots.
Variables (A : xarch) (pages eh_top stack_top table : N) (mem : N -> N) (cfg : xcfg) (st : xst) (mu : xmmu) (nslots : N) (l : xllt).
Hypothesis HP : pages < 2 ^ 51.
Hypothesis HE : 4096 <= eh_top < 2 ^ 64.
Hypothesis HS : pages * 4096 <= stack_top < 2 ^ 64.
Hypothesis HN : nslots <= 108.
Hypothesis TB : table + 4096 <= 2 ^ 48.
Hypothesis SU : high_va_setup A pages eh_top stack_top table mem = XOk (inr (cfg, st, Some mu)).
Hypothesis LL : slot_llt A cfg table (x_mem st) = inr l.
Notation mm := (high_regions pages eh_top stack_top).
Notation T := (mkTbls table 1).
Notation tr := (s1_translate (xa_lpa2 A) mu).
Notation dyn := (xdyn A cfg T (x_mem st)).

Lemma su_parts : exists mm', xlat_ctx_cfg_init A false HighRegion mm (2 ^ 21) = (mm', inr cfg) /\
  xlat_ctx_init A false cfg T mem = XOk (inr st) /\ setup_mmu_cfg A cfg T = Some mu.
Proof.
  assert (HV : HIGH_VA_SIZE = 2 ^ 21) by reflexivity. pose proof SU as E. unfold high_va_setup in E. rewrite HV in E.
  destruct (xlat_ctx_cfg_init A false HighRegion mm (2 ^ 21)) as [mm' [e|c]]; cbn [snd] in E; [discriminate|].
  destruct (xlat_ctx_init A false c T mem) as [[e|s]|] eqn:E2; try discriminate.
  injection E as <- <- E3. exists mm'. split; [reflexivity|]. split; [exact E2|exact E3].
Qed.

Lemma regions64 : Forall region64 mm.
Proof.
  unfold high_regions, CPU_EH_STACK_VIRT, CPU_STACK_VIRT, SLOT_VIRT, SLOT_NUM. repeat constructor; cbn [mm_pa mm_va mm_size]; unfold region64; cbn [mm_pa mm_va mm_size].
  all: try (unfold wrap64; apply N.mod_lt; discriminate). all: clear - HP; lia.
Qed.

Lemma llt_any : forall m va, 2 ^ 64 - 2 ^ 21 <= va < 2 ^ 64 -> xlat_get_llt_from_va A cfg T m va = inr (mkLlt table (2 ^ 64 - 2 ^ 21) 0).
Proof.
  intros m va Hva. destruct su_parts as (mm' & E1 & E2 & E3). destruct (mmu_facts _ _ _ _ E3) as (W & _).
  destruct (cfg_init_facts _ _ _ _ _ _ _ W regions64 E1) as (F1 & F2 & F3 & F4 & _).
  change (base_height (2 ^ 21)) with 0%nat in F4. cbn [region_base] in F3. unfold xlat_get_llt_from_va. rewrite F1, F3, F4. cbn [last_table t_tables].
  set (b := 2 ^ 64 - 2 ^ 21) in *. assert (B : b = 2 ^ 64 - 2 ^ 21) by reflexivity. clearbody b.
  destruct (N.ltb_spec va b) as [L|L]; [clear - L Hva; lia|].
  assert (Q : N.land (va - b) (not64 4095) <= va - b).
  { change 4095 with (block_mask 0). rewrite land_not64 by (try apply Nat.le_0_l; clear - Hva; lia). rewrite N.mul_comm. apply N.mul_div_le. discriminate. }
  destruct (N.leb_spec (2 ^ 21) (N.land (va - b) (not64 4095))) as [C|C]; [|reflexivity].
  exfalso. set (x := N.land (va - b) (not64 4095)) in *. clearbody x. clear - C Q Hva L B. lia.
Qed.

Lemma l_is : l = mkLlt table (2 ^ 64 - 2 ^ 21) 0.
Proof.
  pose proof LL as E. unfold slot_llt in E. rewrite llt_any in E by (split; vm_compute; [discriminate|reflexivity]). injection E as <-. reflexivity.
Qed.

Lemma slot_at : forall s, s < 108 -> slot_va s = 2 ^ 64 - (108 - s) * 4096.
Proof. intros s Hs. unfold slot_va, SLOT_VIRT, SLOT_NUM. clear - Hs. lia. Qed.

Lemma trans_slot : forall va, transient_at mm va = (2 ^ 64 - 108 * 4096 <=? va) && (va <? 2 ^ 64).
Proof.
  intro va. unfold transient_at, high_regions. cbn [find].
  unfold in_region at 1 2 3. cbn [mm_va mm_size]. unfold CPU_EH_STACK_VIRT, CPU_STACK_VIRT, SLOT_VIRT, SLOT_NUM.
  destruct ((2 ^ 64 - 108 * 4096 - 4096 - pages * 4096 - 4096 - 4096 <=? va) && (va <? 2 ^ 64 - 108 * 4096 - 4096 - pages * 4096 - 4096 - 4096 + 4096)) eqn:C1.
  { cbn [mm_attr]. change (XLAT_NG_DATA_ATTR mod 16 =? 3) with false. symmetry. clear - C1. lia. }
  destruct ((2 ^ 64 - 108 * 4096 - 4096 - pages * 4096 <=? va) && (va <? 2 ^ 64 - 108 * 4096 - 4096 - pages * 4096 + pages * 4096)) eqn:C2.
  { cbn [mm_attr]. change (XLAT_NG_DATA_ATTR mod 16 =? 3) with false. symmetry. clear - C2 HP. lia. }
  replace (2 ^ 64 - 108 * 4096 + 108 * 4096) with (2 ^ 64) by reflexivity.
  destruct ((2 ^ 64 - 108 * 4096 <=? va) && (va <? 2 ^ 64)); reflexivity.
Qed.

Lemma perm_data : forall ns, perm_of_attr (N.lor XLAT_NG_DATA_ATTR (if ns : bool then MT_NS else 0)) = data_perm ns.
Proof. intros []; reflexivity. Qed.

Lemma expect_low : forall c va, va < 2 ^ 64 - 108 * 4096 -> s1_expect mm va = high_expect pages eh_top stack_top c va.
Proof.
  intros c va Hva. unfold s1_expect, high_regions, high_expect. cbn [find].
  unfold in_region. cbn [mm_va mm_size]. unfold CPU_EH_STACK_VIRT, CPU_STACK_VIRT, SLOT_VIRT, SLOT_NUM.
  replace (wrap64 (eh_top + 2 ^ 64 - 4096)) with (eh_top - 4096).
  2:{ unfold wrap64. replace (eh_top + 2 ^ 64 - 4096) with (eh_top - 4096 + 1 * 2 ^ 64) by (clear - HE; lia).
      rewrite N.mod_add by discriminate. symmetry. apply N.mod_small. clear - HE. lia. }
  replace (wrap64 (stack_top + 2 ^ 64 - pages * 4096)) with (stack_top - pages * 4096).
  2:{ unfold wrap64. replace (stack_top + 2 ^ 64 - pages * 4096) with (stack_top - pages * 4096 + 1 * 2 ^ 64) by (clear - HS; lia).
      rewrite N.mod_add by discriminate. symmetry. apply N.mod_small. clear - HS. lia. }
  replace (2 ^ 64 - 108 * 4096 - 4096 - pages * 4096) with (2 ^ 64 - 108 * 4096 - (pages + 1) * 4096) by (clear; lia).
  set (sa := 2 ^ 64 - 108 * 4096 - (pages + 1) * 4096) in *.
  assert (SA : sa + (pages + 1) * 4096 = 2 ^ 64 - 108 * 4096 /\ 2 * 4096 <= sa) by (unfold sa; clear - HP; lia). clearbody sa.
  replace (sa - 4096 - 4096) with (sa - 2 * 4096) by (clear; lia). set (ea := sa - 2 * 4096) in *.
  assert (EA : ea + 2 * 4096 = sa) by (unfold ea; clear - SA; lia). clearbody ea.
  destruct (N.leb_spec (2 ^ 64 - 108 * 4096) va) as [L|_]; [clear - L Hva; lia|]. cbn [andb].
  destruct ((ea <=? va) && (va <? ea + 4096)) eqn:C1.
  - replace ((sa <=? va) && (va <? sa + pages * 4096)) with false by (clear - C1 EA; lia). reflexivity.
  - destruct ((sa <=? va) && (va <? sa + pages * 4096)); reflexivity.
Qed.

Definition sim (m : N -> N) (c : slots) : Prop := dyn m /\ forall va, va < 2 ^ 64 -> tr m va = high_expect pages eh_top stack_top c va.

Lemma sim_start : sim (x_mem st) no_slots.
Proof.
  destruct su_parts as (mm' & E1 & E2 & E3). split; [constructor|]. intros va Hva.
  rewrite (translate_all A false HighRegion mm 21 mm' cfg T false mem st mu va regions64 TB E1 E2 E3 Hva).
  destruct (N.lt_ge_cases va (2 ^ 64 - 108 * 4096)) as [L|L]; [apply expect_low; exact L|].
  unfold high_expect, no_slots. apply N.leb_le in L. rewrite L.
  pose proof (trans_slot va) as TS. rewrite L in TS. apply N.ltb_lt in Hva. rewrite Hva in TS. cbn [andb] in TS.
  unfold transient_at in TS. unfold s1_expect. destruct (find (fun r => in_region r va) mm) as [r|]; [|discriminate]. rewrite TS. reflexivity.
Qed.

(** Addresses of slots *)
Lemma slot_of : forall s va, s < 108 -> va < 2 ^ 64 ->
  (va / 4096 =? slot_va s / 4096) = (2 ^ 64 - 108 * 4096 <=? va) && ((va - (2 ^ 64 - 108 * 4096)) / 4096 =? s).
Proof.
  intros s va Hs Hva. unfold slot_va, SLOT_VIRT, SLOT_NUM. change (2 ^ 64 - 108 * 4096) with ((2 ^ 52 - 108) * 4096).
  replace ((2 ^ 52 - 108) * 4096 + 4096 * s) with ((2 ^ 52 - 108 + s) * 4096) by (clear; lia). rewrite N.div_mul by discriminate.
  destruct (N.leb_spec ((2 ^ 52 - 108) * 4096) va) as [L|L]; cbn [andb].
  - replace va with (va - (2 ^ 52 - 108) * 4096 + (2 ^ 52 - 108) * 4096) at 1 by (clear - L; lia).
    rewrite N.div_add by discriminate. set (x := (va - (2 ^ 52 - 108) * 4096) / 4096) in *. clearbody x. clear. lia.
  - assert (va / 4096 < 2 ^ 52 - 108) by (apply N.div_lt_upper_bound; [discriminate|]; clear - L; lia).
    set (x := va / 4096) in *. clearbody x. clear - H. lia.
Qed.

Lemma sim_map : forall m c s addr, sim m c -> s < 108 ->
  match slot_code A nslots l m (SMap s addr), slot_spec (xa_width A) nslots c (SMap s addr) with
  | Some (m', r), Some (c', r') => r = r' /\ sim m' c'
  | None, None => True
  | _, _ => False
  end.
Proof.
  intros m c s addr [X S] Hs. destruct su_parts as (mm' & E1 & E2 & E3). unfold slot_code, slot_spec, buffer_map.
  destruct (N.ltb_spec s nslots) as [Ln|]; cbn [negb orb]; [|exact Logic.I].
  destruct (N.eqb_spec (addr mod 4096) 0) as [AA|]; cbn [negb]; [|exact Logic.I].
  pose proof (slot_at s Hs) as SV. set (attr := N.lor XLAT_NG_DATA_ATTR (if s =? 0 then MT_NS else 0)).
  assert (V64 : slot_va s < 2 ^ 64) by (rewrite SV; clear - Hs; lia).
  assert (NR : near l (slot_va s)) by (rewrite l_is; unfold near; cbn [l_base_va l_height]; rewrite SV; change (span_of 0) with 4096; clear - Hs; lia).
  assert (VL : 2 ^ 64 - 108 * 4096 <= slot_va s) by (rewrite SV; clear - Hs; lia).
  assert (TS : transient_at mm (slot_va s) = true) by (rewrite trans_slot; clear - VL V64; lia).
  assert (CS : tr m (slot_va s) = None <-> c s = None).
  { rewrite (S _ V64). unfold high_expect. pose proof VL as VL2. apply N.leb_le in VL2. rewrite VL2.
    replace ((slot_va s - (2 ^ 64 - 108 * 4096)) / 4096) with s.
    - destruct (c s); split; (reflexivity || discriminate).
    - unfold slot_va, SLOT_VIRT, SLOT_NUM. rewrite N.add_comm, N.add_sub, N.mul_comm, N.div_mul by discriminate. reflexivity. }
  pose proof (map_final A false HighRegion mm 21 mm' cfg T false mem st mu regions64 TB E1 E2 E3 (x_mem st) (slot_va 0) l (slot_va s) addr attr m
    (xd_start _ _ _ _) ltac:(reflexivity) LL X NR) as MF.
  pose proof (succeeds_final A false HighRegion mm 21 mm' cfg T false mem st mu regions64 TB E1 E2 E3 m (slot_va s) l X V64) as SF.
  specialize (SF ltac:(rewrite l_is; apply llt_any; split; [clear - VL; lia|exact V64]) TS). destruct SF as (_ & SF & _).
  assert (AT : attr mod 16 = 2) by (unfold attr; destruct (s =? 0); reflexivity).
  destruct (xlat_map_page A l (slot_va s) addr attr m) as [[m' [e|]]|] eqn:EM.
  - destruct MF as [-> ->]. destruct (c s) as [g|] eqn:Ec; [split; [reflexivity|split; assumption]|].
    destruct (N.ltb_spec addr (2 ^ xa_width A)) as [LA|LA]; [|split; [reflexivity|split; assumption]].
    exfalso. destruct (SF (proj2 CS eq_refl) addr attr LA (or_intror AT)) as [m' E]. rewrite EM in E. discriminate E.
  - destruct MF as (_ & PA & MF).
    assert (X' : dyn m').
    { apply (xd_map A cfg T (x_mem st) (x_mem st) (slot_va 0) l (slot_va s) addr attr m m' None);
        [constructor|reflexivity|exact LL|exact X|exact NR|exact EM]. }
    rewrite l_is in MF. cbn [l_height] in MF. change (span_of 0) with 4096 in MF.
    assert (CN : c s = None).
    { apply CS. specialize (MF _ V64). rewrite N.eqb_refl in MF. apply MF. }
    rewrite CN. apply N.ltb_lt in PA. rewrite PA. split; [rewrite SV; reflexivity|]. split; [exact X'|].
    intros va Hva. specialize (MF va Hva). rewrite (slot_of s va Hs Hva) in MF. unfold high_expect, set_slot.
    destruct (N.leb_spec (2 ^ 64 - 108 * 4096) va) as [L|L]; cbn [andb] in MF.
    + destruct (N.eqb_spec ((va - (2 ^ 64 - 108 * 4096)) / 4096) s) as [Es|Es].
      * destruct MF as (_ & _ & MF). rewrite MF, AT. cbn [N.eqb Pos.eqb]. unfold attr. rewrite perm_data, Es. do 2 f_equal.
        f_equal. apply N.mod_divide in AA; [|discriminate]. destruct AA as [q ->]. rewrite N.div_mul by discriminate. reflexivity.
      * rewrite MF, (S va Hva). unfold high_expect. apply N.leb_le in L. rewrite L. reflexivity.
    + rewrite MF, (S va Hva). unfold high_expect. apply N.leb_gt in L. rewrite L. reflexivity.
  - exfalso. destruct MF as (_ & M2 & _). exact (M2 AT).
Qed.

Lemma sim_unmap : forall m c s, sim m c -> s < 108 ->
  match slot_code A nslots l m (SUnmap s), slot_spec (xa_width A) nslots c (SUnmap s) with
  | Some (m', r), Some (c', r') => r = r' /\ sim m' c'
  | None, None => True
  | _, _ => False
  end.
Proof.
  intros m c s [X S] Hs. destruct su_parts as (mm' & E1 & E2 & E3). unfold slot_code, slot_spec, buffer_unmap.
  pose proof (slot_at s Hs) as SV.
  assert (V64 : slot_va s < 2 ^ 64) by (rewrite SV; clear - Hs; lia).
  assert (NR : near l (slot_va s)) by (rewrite l_is; unfold near; cbn [l_base_va l_height]; rewrite SV; change (span_of 0) with 4096; clear - Hs; lia).
  assert (VL : 2 ^ 64 - 108 * 4096 <= slot_va s) by (rewrite SV; clear - Hs; lia).
  assert (TS : transient_at mm (slot_va s) = true) by (rewrite trans_slot; clear - VL V64; lia).
  assert (CS : tr m (slot_va s) = None <-> c s = None).
  { rewrite (S _ V64). unfold high_expect. pose proof VL as VL2. apply N.leb_le in VL2. rewrite VL2.
    replace ((slot_va s - (2 ^ 64 - 108 * 4096)) / 4096) with s.
    - destruct (c s); split; (reflexivity || discriminate).
    - unfold slot_va, SLOT_VIRT, SLOT_NUM. rewrite N.add_comm, N.add_sub, N.mul_comm, N.div_mul by discriminate. reflexivity. }
  pose proof (unmap_final A false HighRegion mm 21 mm' cfg T false mem st mu regions64 TB E1 E2 E3 (x_mem st) (slot_va 0) l (slot_va s) m
    (xd_start _ _ _ _) ltac:(reflexivity) LL X NR) as MF.
  pose proof (succeeds_final A false HighRegion mm 21 mm' cfg T false mem st mu regions64 TB E1 E2 E3 m (slot_va s) l X V64) as SF.
  specialize (SF ltac:(rewrite l_is; apply llt_any; split; [clear - VL; lia|exact V64]) TS). destruct SF as (_ & _ & SF).
  destruct (xlat_unmap_page l (slot_va s) m) as [m' [e|t]] eqn:EM.
  - destruct (c s) as [g|] eqn:Ec; [|exact Logic.I].
    destruct SF as [m2 E]; [intro N0; apply CS in N0; discriminate N0|]. discriminate E.
  - destruct MF as (Et & _ & MF).
    assert (X' : dyn m').
    { apply (xd_unmap A cfg T (x_mem st) (x_mem st) (slot_va 0) l (slot_va s) m m' (inr t));
        [constructor|reflexivity|exact LL|exact X|exact NR|exact EM]. }
    rewrite l_is in MF. cbn [l_height] in MF. change (span_of 0) with 4096 in MF.
    destruct (c s) as [g|] eqn:Ec.
    2:{ specialize (MF _ V64). rewrite N.eqb_refl in MF. destruct MF as (_ & MF & _). apply MF. apply CS. reflexivity. }
    split; [rewrite Et, SV; reflexivity|]. split; [exact X'|].
    intros va Hva. specialize (MF va Hva). rewrite (slot_of s va Hs Hva) in MF. unfold high_expect, set_slot.
    destruct (N.leb_spec (2 ^ 64 - 108 * 4096) va) as [L|L]; cbn [andb] in MF.
    + destruct (N.eqb_spec ((va - (2 ^ 64 - 108 * 4096)) / 4096) s) as [Es|Es].
      * apply MF.
      * rewrite MF, (S va Hva). unfold high_expect. apply N.leb_le in L. rewrite L. reflexivity.
    + rewrite MF, (S va Hva). unfold high_expect. apply N.leb_gt in L. rewrite L. reflexivity.
Qed.

Lemma sim_run : forall ops m c, sim m c -> Forall (fun op => op_slot op < 108) ops ->
  match slot_run (slot_code A nslots l) m ops, slot_run (slot_spec (xa_width A) nslots) c ops with
  | Some (m', rs), Some (c', rs') => rs = rs' /\ sim m' c'
  | None, None => True
  | _, _ => False
  end.
Proof.
  induction ops as [|op ops IH]; intros m c S F; cbn [slot_run]; [split; [reflexivity|exact S]|].
  inversion F as [|? ? F1 F2]; subst.
  assert (ST : match slot_code A nslots l m op, slot_spec (xa_width A) nslots c op with
    | Some (m', r), Some (c', r') => r = r' /\ sim m' c' | None, None => True | _, _ => False end).
  { destruct op as [s addr|s]; [apply sim_map|apply sim_unmap]; assumption. }
  destruct (slot_code A nslots l m op) as [[m1 r]|]; destruct (slot_spec (xa_width A) nslots c op) as [[c1 r']|]; try contradiction; [|exact Logic.I].
  destruct ST as [-> S1]. specialize (IH m1 c1 S1 F2).
  destruct (slot_run (slot_code A nslots l) m1 ops) as [[m2 rs]|]; destruct (slot_run (slot_spec (xa_width A) nslots) c1 ops) as [[c2 rs']|]; try contradiction; [|exact Logic.I].
  destruct IH as [-> IH]. split; [reflexivity|exact IH].
Qed.

Definition is_free (c : slots) (s : N) : bool := match c s with None => true | Some _ => false end.

Lemma empty_at : forall m c s, sim m c -> s < 108 -> exists p, xlat_get_tte_ptr l (slot_va s) = Some p /\ (m p =? TRANSIENT_DESC) = is_free c s.
Proof.
  intros m c s [X S] Hs. destruct su_parts as (mm' & E1 & E2 & E3). pose proof (slot_at s Hs) as SV.
  assert (V64 : slot_va s < 2 ^ 64) by (rewrite SV; clear - Hs; lia).
  assert (VL : 2 ^ 64 - 108 * 4096 <= slot_va s) by (rewrite SV; clear - Hs; lia).
  assert (TS : transient_at mm (slot_va s) = true) by (rewrite trans_slot; clear - VL V64; lia).
  destruct (entry_final A false HighRegion mm 21 mm' cfg T false mem st mu regions64 TB E1 E2 E3 m (slot_va s) l X V64) as (p & EP & TD);
    [rewrite l_is; apply llt_any; split; [clear - VL; lia|exact V64]|exact TS|].
  exists p. split; [exact EP|].
  rewrite (S _ V64) in TD. unfold high_expect in TD. pose proof VL as VL2. apply N.leb_le in VL2. rewrite VL2 in TD.
  replace ((slot_va s - (2 ^ 64 - 108 * 4096)) / 4096) with s in TD.
  2:{ unfold slot_va, SLOT_VIRT, SLOT_NUM. rewrite N.add_comm, N.add_sub, N.mul_comm, N.div_mul by discriminate. reflexivity. }
  unfold is_free. destruct (c s) as [g|].
  - apply N.eqb_neq. intro E. apply TD in E. discriminate E.
  - apply N.eqb_eq. apply TD. reflexivity.
Qed.

Lemma empty_all : forall m c, sim m c -> forall n i, i + N.of_nat n <= 108 ->
  slots_empty l n i m = Some (forallb (is_free c) (map (fun k => i + N.of_nat k) (seq 0 n))).
Proof.
  intros m c S. induction n as [|n IH]; intros i Hi; [reflexivity|].
  cbn [slots_empty]. destruct (empty_at m c i S) as (p & EP & TD); [clear - Hi; lia|]. rewrite EP, TD.
  cbn [seq map forallb]. rewrite N.add_0_r. destruct (is_free c i); cbn [negb andb]; [|reflexivity].
  rewrite IH by (clear - Hi; lia). do 2 f_equal. rewrite <- seq_shift, map_map. apply map_ext. intro k. clear. lia.
Qed.

Lemma slots_all : forall ops, Forall (fun op => op_slot op < 108) ops ->
  match slot_run (slot_code A nslots l) (x_mem st) ops, slot_run (slot_spec (xa_width A) nslots) no_slots ops with
  | Some (m, rs), Some (c, rs') => rs = rs' /\
      (forall va, va < 2 ^ 64 -> tr m va = high_expect pages eh_top stack_top c va) /\
      (forall b, slots_empty l (N.to_nat nslots) 0 m = Some b -> b = true <-> forall s, s < nslots -> c s = None) /\
      slots_empty l (N.to_nat nslots) 0 m <> None
  | None, None => True
  | _, _ => False
  end.
Proof.
  intros ops F. pose proof (sim_run ops _ _ sim_start F) as SR.
  destruct (slot_run (slot_code A nslots l) (x_mem st) ops) as [[m rs]|]; destruct (slot_run (slot_spec (xa_width A) nslots) no_slots ops) as [[c rs']|]; try exact SR.
  destruct SR as [-> S]. split; [reflexivity|]. split; [apply S|].
  rewrite (empty_all m c S) by (clear - HN; lia). split; [|discriminate].
  intros b E. injection E as <-. rewrite forallb_forall. split; intro Q.
  - intros s Hs. specialize (Q s). assert (I : In s (map (fun k => 0 + N.of_nat k) (seq 0 (N.to_nat nslots)))).
    { apply in_map_iff. exists (N.to_nat s). split; [clear; lia|]. apply in_seq. clear - Hs. lia. }
    specialize (Q I). unfold is_free in Q. destruct (c s); [discriminate|reflexivity].
  - intros s I. apply in_map_iff in I. destruct I as (k & Ek & I). apply in_seq in I. unfold is_free. rewrite Q; [reflexivity|]. clear - Ek I. lia.
Qed.
End Slots.
