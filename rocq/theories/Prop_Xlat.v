(** C55, C56, C57: the monitor's own translation tables (lib/xlat). *)
From Coq Require Import NArith List Bool Lia.
From Verif Require Import Bits Xlat SpecXlat XlatDesc XlatTree XlatMap XlatInit XlatCfg.
Import ListNotations.
Local Open Scope N_scope.

(** ** The example: code, data with two blocks and five pages, a device, and two pages
    that are mapped on demand *)
Definition xe_arch := mkXarch false 48.
Definition xe_regions : list mmap_region :=
  [mkMm 0x88000000 0x88000000 0x3000 MT_CODE 4096;
   mkMm 0x88200000 0x88200000 0x405000 MT_RW_DATA (2 ^ 30);
   mkMm 0x1c090000 0x8c000000 0x1000 (N.lor MT_DEVICE MT_RW) 4096;
   mkMm 0 0x90000000 0x2000 MT_TRANSIENT 4096].
Definition xe_tables := mkTbls 0x8a000000 6.
Definition xe_mem : N -> N := fun a => a.
Definition xe_cfg : xcfg := mkCfg (2 ^ 39) xe_regions 0 2 LowRegion.
Definition xe_state : xst :=
  match xlat_ctx_init xe_arch false xe_cfg xe_tables xe_mem with XOk (inr st) => st | _ => mkXst xe_mem 0 end.
Definition xe_mmu : xmmu := mkMmu LowRegion 25 0x8a000001.

(** ** C55: for every list of regions that xlat_ctx_cfg_init accepts, and every virtual
    address, the MMU finds in the tables what the regions ask for: the physical address
    and the permissions of the region the address is in, and nothing for any other
    address.  The size of the address space is a power of two. *)
Theorem xlat_tables_translate : forall A inited region mm n mm' cfg T inited2 mem st mu va,
  Forall region64 mm -> t_tables T + 4096 * t_num T <= 2 ^ 48 ->
  xlat_ctx_cfg_init A inited region mm (2 ^ n) = (mm', inr cfg) ->
  xlat_ctx_init A inited2 cfg T mem = XOk (inr st) ->
  setup_mmu_cfg A cfg T = Some mu -> va < 2 ^ 64 ->
  s1_translate (xa_lpa2 A) mu (x_mem st) va = s1_expect mm va.
Proof. exact translate_all. Qed.

Example xlat_tables_example :
  xlat_ctx_cfg_init xe_arch false LowRegion xe_regions (2 ^ 39) = (xe_regions, inr xe_cfg) /\
  (exists st, xlat_ctx_init xe_arch false xe_cfg xe_tables xe_mem = XOk (inr st)) /\
  setup_mmu_cfg xe_arch xe_cfg xe_tables = Some xe_mmu /\
  map (s1_translate false xe_mmu (x_mem xe_state))
    [0x88001abc; 0x88003000; 0x885fffff; 0x88604123; 0x88605000; 0x8c000010; 0x90000000; 2 ^ 39; 2 ^ 64 - 1] =
  [Some (0x88001abc, mkPerm false false true false false false true); None;
   Some (0x885fffff, mkPerm true false false false false false true);
   Some (0x88604123, mkPerm true false false false false false true); None;
   Some (0x1c090010, mkPerm true false false false false true true); None; None; None] /\
  Forall region64 xe_regions.
Proof.
  split; [vm_compute; reflexivity|]. split.
  { destruct (xlat_ctx_init xe_arch false xe_cfg xe_tables xe_mem) as [[e|st]|] eqn:E; [| eexists; reflexivity |];
      exfalso; apply (f_equal (fun r => match r with XOk (inr _) => true | _ => false end)) in E; vm_compute in E; discriminate E. }
  split; [vm_compute; reflexivity|]. split; [vm_compute; reflexivity|].
  repeat constructor; vm_compute; reflexivity.
Qed.

(** How the initialization ends.  It does not return for a region with an unknown type or
    when there are fewer tables than the regions need: an assertion fails, the error
    code ENOMEM is never returned.  In no case is memory outside the tables changed. *)
Theorem xlat_init_result : forall A inited region mm va_size mm' cfg T inited2 mem, xa_width A <= 52 -> Forall region64 mm ->
  xlat_ctx_cfg_init A inited region mm va_size = (mm', inr cfg) ->
  t_tables T + 4096 * t_num T <= 2 ^ 48 ->
  match xlat_ctx_init A inited2 cfg T mem with
  | XPanic =>
      (exists r, In r mm /\ mm_attr r mod 16 <> 0 /\ mm_attr r mod 16 <> 2 /\ mm_attr r mod 16 <> 3) \/
      forall L, (forall h v, (h < c_height cfg)%nat -> table_useful (c_mmap cfg) h v -> In (h, v) L) -> t_num T <= N.of_nat (length L)
  | XOk (inl e) => (t_num T = 0 \/ t_tables T mod 4096 <> 0) /\ e = X_EINVAL \/ inited2 = true /\ e = X_EALREADY
  | XOk (inr st) => forall a, ~ (t_tables T <= a < t_tables T + 4096 * t_num T) -> x_mem st a = mem a
  end.
Proof. exact init_result_all. Qed.

(** With one table less the example does not return; nor with an unknown type. *)
Example xlat_init_short :
  xlat_ctx_init xe_arch false xe_cfg (mkTbls 0x8a000000 5) xe_mem = XPanic /\
  xlat_ctx_init xe_arch false (mkCfg (2 ^ 39) [mkMm 0 0 4096 1 4096] 0 2 LowRegion) xe_tables xe_mem = XPanic /\
  xlat_ctx_init xe_arch true xe_cfg xe_tables xe_mem = XOk (inl X_EALREADY) /\
  xlat_ctx_init xe_arch false xe_cfg (mkTbls 0x8a000000 0) xe_mem = XOk (inl X_EINVAL).
Proof. vm_compute. repeat split. Qed.

(** A size that is not a power of two is accepted, but TxSZ is then computed from its
    lowest bit: the MMU starts at another level than the tables. *)
Definition xr_regions : list mmap_region := [mkMm 0x88000000 0x88000000 0x3000 MT_CODE 4096].
Definition xr_cfg : xcfg := mkCfg (3 * 2 ^ 30) xr_regions 0 2 LowRegion.
Definition xr_state : xst :=
  match xlat_ctx_init xe_arch false xr_cfg xe_tables xe_mem with XOk (inr st) => st | _ => mkXst xe_mem 0 end.
Theorem xlat_size_refuted : exists mm va_size cfg T st mu va,
  xlat_ctx_cfg_init xe_arch false LowRegion mm va_size = (mm, inr cfg) /\
  xlat_ctx_init xe_arch false cfg T xe_mem = XOk (inr st) /\
  setup_mmu_cfg xe_arch cfg T = Some mu /\
  s1_expect mm va <> None /\ s1_translate false mu (x_mem st) va = None.
Proof.
  exists xr_regions, (3 * 2 ^ 30), xr_cfg, xe_tables, xr_state, (mkMmu LowRegion 34 0x8a000001), 0x88000000.
  split; [vm_compute; reflexivity|]. split.
  { unfold xr_state. destruct (xlat_ctx_init xe_arch false xr_cfg xe_tables xe_mem) as [[e|st]|] eqn:E; [|reflexivity|];
      exfalso; apply (f_equal (fun r => match r with XOk (inr _) => true | _ => false end)) in E; vm_compute in E; discriminate E. }
  split; [vm_compute; reflexivity|]. split; [vm_compute; discriminate|vm_compute; reflexivity].
Qed.

(** When xlat_ctx_cfg_init rejects the regions of the upper half, it has already
    changed the array of the caller. *)
Theorem xlat_reject_changes_refuted : exists mm mm' e,
  xlat_ctx_cfg_init xe_arch false HighRegion mm (2 ^ 21) = (mm', inl e) /\ mm' <> mm.
Proof.
  exists [mkMm 0x88000000 (2 ^ 64 - 0x10000) 0x1000 MT_RW_DATA 4096; mkMm 0x88001000 (2 ^ 64 - 0x8000) 0x800 MT_RW_DATA 4096].
  eexists. eexists. split; [vm_compute; reflexivity|]. intro H. injection H. discriminate.
Qed.

(** ** C56: nothing that the tables map is writable and executable for the monitor, and
    device memory is never executable for it. *)
Theorem xlat_write_xor_execute : forall A inited region mm n mm' cfg T inited2 mem st mu va pa p,
  Forall region64 mm -> t_tables T + 4096 * t_num T <= 2 ^ 48 ->
  xlat_ctx_cfg_init A inited region mm (2 ^ n) = (mm', inr cfg) ->
  xlat_ctx_init A inited2 cfg T mem = XOk (inr st) ->
  setup_mmu_cfg A cfg T = Some mu -> va < 2 ^ 64 ->
  s1_translate (xa_lpa2 A) mu (x_mem st) va = Some (pa, p) ->
  p_pexec p = true -> p_write p = false /\ p_device p = false.
Proof. exact wxor_all. Qed.

(** Code is executable: the theorem is not empty. *)
Example xlat_write_xor_execute_example :
  match s1_translate false xe_mmu (x_mem xe_state) 0x88001abc with Some (_, p) => p_pexec p | None => false end = true.
Proof. vm_compute. reflexivity. Qed.

(** ** C57: no physical address is mapped twice.  Proved is only this: when two regions
    of an accepted list share an address, the later one encloses the earlier one on both
    sides.  Missing is that this does not happen, and it does. *)
Theorem xlat_no_alias_partial : forall A inited region mm va_size mm' cfg, xa_width A <= 52 -> Forall region64 mm ->
  xlat_ctx_cfg_init A inited region mm va_size = (mm', inr cfg) ->
  forall i j r1 r2 pa, (i < j)%nat -> nth_error mm i = Some r1 -> nth_error mm j = Some r2 -> backs r1 pa -> backs r2 pa ->
  mm_pa r2 < mm_pa r1 /\ mm_pa r1 + mm_size r1 < mm_pa r2 + mm_size r2.
Proof. exact pa_overlap_all. Qed.

(** Code at one address, the same memory writable at another *)
Definition xa_regions : list mmap_region :=
  [mkMm 0x88001000 0x88001000 0x1000 MT_CODE 4096; mkMm 0x88000000 0x89000000 0x3000 MT_RW_DATA 4096].
Definition xa_cfg : xcfg := mkCfg (2 ^ 39) xa_regions 0 2 LowRegion.
Definition xa_state : xst :=
  match xlat_ctx_init xe_arch false xa_cfg xe_tables xe_mem with XOk (inr st) => st | _ => mkXst xe_mem 0 end.
Theorem xlat_no_alias_refuted : exists mm cfg st mu va va' pa p p',
  xlat_ctx_cfg_init xe_arch false LowRegion mm (2 ^ 39) = (mm, inr cfg) /\
  xlat_ctx_init xe_arch false cfg xe_tables xe_mem = XOk (inr st) /\
  setup_mmu_cfg xe_arch cfg xe_tables = Some mu /\
  s1_translate false mu (x_mem st) va = Some (pa, p) /\ p_pexec p = true /\
  s1_translate false mu (x_mem st) va' = Some (pa, p') /\ p_write p' = true.
Proof.
  exists xa_regions, xa_cfg, xa_state, xe_mmu, 0x88001000, 0x89001000, 0x88001000.
  exists (mkPerm false false true false false false true), (mkPerm true false false false false false true).
  split; [vm_compute; reflexivity|]. split.
  { unfold xa_state. destruct (xlat_ctx_init xe_arch false xa_cfg xe_tables xe_mem) as [[e|st]|] eqn:E; [|reflexivity|];
      exfalso; apply (f_equal (fun r => match r with XOk (inr _) => true | _ => false end)) in E; vm_compute in E; discriminate E. }
  split; [vm_compute; reflexivity|]. split; [vm_compute; reflexivity|]. split; [reflexivity|]. split; [vm_compute; reflexivity|reflexivity].
Qed.

(** The check finds an overlap on one side. *)
Example xlat_alias_found :
  snd (xlat_ctx_cfg_init xe_arch false LowRegion
    [mkMm 0x88001000 0x88001000 0x2000 MT_CODE 4096; mkMm 0x88000000 0x89000000 0x2000 MT_RW_DATA 4096] (2 ^ 39)) = inl X_EPERM.
Proof. vm_compute. reflexivity. Qed.

Definition xlat_theorems :=
  (@xlat_tables_translate, @xlat_tables_example, @xlat_init_result, @xlat_init_short, @xlat_size_refuted, @xlat_reject_changes_refuted,
   @xlat_write_xor_execute, @xlat_write_xor_execute_example, @xlat_no_alias_partial, @xlat_no_alias_refuted, @xlat_alias_found).
Print Assumptions xlat_theorems.
