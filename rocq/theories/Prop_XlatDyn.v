(** C58, C59: pages that are mapped on demand (lib/xlat) and slot buffers (lib/slot_buf). *)
From Coq Require Import NArith List Bool Lia.
From Verif Require Import Bits Xlat SpecXlat SpecSlots XlatDyn2 XlatSlots.
Import ListNotations.
Local Open Scope N_scope.

(** ** The example: code, two pages and a block of 2 MB that are mapped on demand *)
Definition xd_arch := mkXarch false 48.
Definition xd_regions : list mmap_region :=
  [mkMm 0x88000000 0x88000000 0x3000 MT_CODE 4096;
   mkMm 0 0x90000000 0x2000 MT_TRANSIENT 4096;
   mkMm 0x200000 0x90200000 0x200000 MT_TRANSIENT (2 ^ 30)].
Definition xd_tables := mkTbls 0x8a000000 6.
Definition xd_cfg : xcfg := mkCfg (2 ^ 39) xd_regions 0 2 LowRegion.
Definition xd_state : xst :=
  match xlat_ctx_init xd_arch false xd_cfg xd_tables (fun a => a) with XOk (inr st) => st | _ => mkXst (fun a => a) 0 end.
Definition xd_mmu : xmmu := mkMmu LowRegion 25 0x8a000001.
Definition xd_llt (va : N) : xllt :=
  match xlat_get_llt_from_va xd_arch xd_cfg xd_tables (x_mem xd_state) va with inr l => l | inl _ => mkLlt 0 0 0 end.
Definition xd_page := xd_llt 0x90000000.
Definition xd_block := xd_llt 0x90200000.
Definition xd_data : N := N.lor MT_RW_DATA MT_NG.
Definition xd_mapped : N -> N :=
  match xlat_map_page xd_arch xd_page 0x90001000 0x12345000 xd_data (x_mem xd_state) with XOk (m, _) => m | XPanic => x_mem xd_state end.

(** ** C58: mapping and unmapping.  [m] is any memory that can be reached by mapping and
    unmapping pages of the context, [l] the last-level table of any address at any such
    time, and [va] less than 2^32 entries away from the start of that table.

    Mapping: if it fails, nothing changes.  If it succeeds, the address is in a region
    for mapping on demand and nothing was mapped there; afterwards the page or block of
    the address translates to the physical address with the attributes that were asked
    for, and no other address translates differently. *)
Theorem xlat_map_effect : forall A inited region mm n mm' cfg T inited2 mem st mu,
  Forall region64 mm -> t_tables T + 4096 * t_num T <= 2 ^ 48 ->
  xlat_ctx_cfg_init A inited region mm (2 ^ n) = (mm', inr cfg) ->
  xlat_ctx_init A inited2 cfg T mem = XOk (inr st) ->
  setup_mmu_cfg A cfg T = Some mu ->
  forall ml va0 l va pa attrs m, xdyn A cfg T (x_mem st) ml -> va0 < 2 ^ 64 -> xlat_get_llt_from_va A cfg T ml va0 = inr l ->
  xdyn A cfg T (x_mem st) m -> near l va ->
  match xlat_map_page A l va pa attrs m with
  | XPanic => attrs mod 16 <> 0 /\ attrs mod 16 <> 2 /\ attrs mod 16 <> 3
  | XOk (m', Some e) => m' = m /\ e = X_EFAULT
  | XOk (m', None) => transient_at mm va = true /\ pa < 2 ^ xa_width A /\
      forall va', va' < 2 ^ 64 ->
        if va' / span_of (l_height l) =? va / span_of (l_height l)
        then transient_at mm va' = true /\ s1_translate (xa_lpa2 A) mu m va' = None /\
             s1_translate (xa_lpa2 A) mu m' va' =
               if attrs mod 16 =? 3 then None
               else Some (pa / span_of (l_height l) * span_of (l_height l) + va' mod span_of (l_height l), perm_of_attr attrs)
        else s1_translate (xa_lpa2 A) mu m' va' = s1_translate (xa_lpa2 A) mu m va'
  end.
Proof. exact map_final. Qed.

(** Unmapping: if it fails, nothing changes.  If it succeeds, the address was mapped and
    is in a region for mapping on demand; afterwards its page or block is not mapped, no
    other address translates differently, and the address whose cached translation is
    removed is that of the page. *)
Theorem xlat_unmap_effect : forall A inited region mm n mm' cfg T inited2 mem st mu,
  Forall region64 mm -> t_tables T + 4096 * t_num T <= 2 ^ 48 ->
  xlat_ctx_cfg_init A inited region mm (2 ^ n) = (mm', inr cfg) ->
  xlat_ctx_init A inited2 cfg T mem = XOk (inr st) ->
  setup_mmu_cfg A cfg T = Some mu ->
  forall ml va0 l va m, xdyn A cfg T (x_mem st) ml -> va0 < 2 ^ 64 -> xlat_get_llt_from_va A cfg T ml va0 = inr l ->
  xdyn A cfg T (x_mem st) m -> near l va ->
  match xlat_unmap_page l va m with
  | (m', inl e) => m' = m /\ e = X_EFAULT
  | (m', inr t) => t = va / 4096 mod 2 ^ 44 /\ transient_at mm va = true /\
      forall va', va' < 2 ^ 64 ->
        if va' / span_of (l_height l) =? va / span_of (l_height l)
        then transient_at mm va' = true /\ s1_translate (xa_lpa2 A) mu m va' <> None /\ s1_translate (xa_lpa2 A) mu m' va' = None
        else s1_translate (xa_lpa2 A) mu m' va' = s1_translate (xa_lpa2 A) mu m va'
  end.
Proof. exact unmap_final. Qed.

(** With the table of the address itself both succeed whenever they should. *)
Theorem xlat_map_unmap_succeed : forall A inited region mm n mm' cfg T inited2 mem st mu,
  Forall region64 mm -> t_tables T + 4096 * t_num T <= 2 ^ 48 ->
  xlat_ctx_cfg_init A inited region mm (2 ^ n) = (mm', inr cfg) ->
  xlat_ctx_init A inited2 cfg T mem = XOk (inr st) ->
  setup_mmu_cfg A cfg T = Some mu ->
  forall m va, xdyn A cfg T (x_mem st) m -> va < 2 ^ 64 -> transient_at mm va = true ->
  exists l, xlat_get_llt_from_va A cfg T m va = inr l /\ near l va /\
  (s1_translate (xa_lpa2 A) mu m va = None -> forall pa attrs, pa < 2 ^ xa_width A -> attrs mod 16 = 0 \/ attrs mod 16 = 2 ->
     exists m', xlat_map_page A l va pa attrs m = XOk (m', None)) /\
  (s1_translate (xa_lpa2 A) mu m va <> None -> exists m', xlat_unmap_page l va m = (m', inr (va / 4096 mod 2 ^ 44))).
Proof. exact both_succeed. Qed.

(** Whatever is mapped and unmapped: all other addresses translate as the regions ask *)
Theorem xlat_static_unchanged : forall A inited region mm n mm' cfg T inited2 mem st mu,
  Forall region64 mm -> t_tables T + 4096 * t_num T <= 2 ^ 48 ->
  xlat_ctx_cfg_init A inited region mm (2 ^ n) = (mm', inr cfg) ->
  xlat_ctx_init A inited2 cfg T mem = XOk (inr st) ->
  setup_mmu_cfg A cfg T = Some mu ->
  forall m va, xdyn A cfg T (x_mem st) m -> va < 2 ^ 64 -> transient_at mm va = false ->
  s1_translate (xa_lpa2 A) mu m va = s1_expect mm va.
Proof. exact static_final. Qed.

Definition shows (f : N -> N) (vas : list N) : list (option N) :=
  map (fun va => match s1_translate false xd_mmu f va with Some (pa, _) => Some pa | None => None end) vas.

Example xlat_dyn_example :
  xlat_ctx_cfg_init xd_arch false LowRegion xd_regions (2 ^ 39) = (xd_regions, inr xd_cfg) /\
  (exists st, xlat_ctx_init xd_arch false xd_cfg xd_tables (fun a => a) = XOk (inr st)) /\
  setup_mmu_cfg xd_arch xd_cfg xd_tables = Some xd_mmu /\
  (xd_page, l_height xd_block) = (mkLlt 0x8a003000 0x90000000 0, 1%nat) /\
  near xd_page 0x90001000 /\
  (* nothing is mapped at first; then a page; the block is mapped as a whole *)
  shows (x_mem xd_state) [0x90000000; 0x90001abc; 0x90200000; 0x88000123] = [None; None; None; Some 0x88000123] /\
  shows xd_mapped [0x90000000; 0x90001abc; 0x90200000; 0x88000123] = [None; Some 0x12345abc; None; Some 0x88000123] /\
  s1_translate false xd_mmu xd_mapped 0x90001abc = Some (0x12345abc, mkPerm true false false false false false false) /\
  match xlat_map_page xd_arch xd_block 0x90201000 0x40301000 xd_data xd_mapped with
  | XOk (m, None) => shows m [0x90200000; 0x903fffff; 0x90001abc; 0x90400000] = [Some 0x40200000; Some 0x403fffff; Some 0x12345abc; None]
  | _ => False
  end /\
  (* a second mapping, one outside of the regions, one that is too high *)
  map (fun p => match xlat_map_page xd_arch xd_page (fst p) (snd p) xd_data xd_mapped with XOk (_, r) => r | XPanic => None end)
    [(0x90001000, 0x5000); (0x90002000, 0x5000); (0x90000000, 2 ^ 48)] = [Some X_EFAULT; Some X_EFAULT; Some X_EFAULT] /\
  (* unmapping *)
  snd (xlat_unmap_page xd_page 0x90000000 xd_mapped) = inl X_EFAULT /\
  snd (xlat_unmap_page xd_page 0x90001000 xd_mapped) = inr 0x90001 /\
  shows (fst (xlat_unmap_page xd_page 0x90001000 xd_mapped)) [0x90000000; 0x90001abc; 0x88000123] = [None; None; Some 0x88000123] /\
  Forall region64 xd_regions.
Proof.
  split; [vm_compute; reflexivity|]. split.
  { destruct (xlat_ctx_init xd_arch false xd_cfg xd_tables (fun a => a)) as [[e|st]|] eqn:E; [| eexists; reflexivity |];
      exfalso; apply (f_equal (fun r => match r with XOk (inr _) => true | _ => false end)) in E; vm_compute in E; discriminate E. }
  repeat (split; [vm_compute; reflexivity|]). repeat constructor; vm_compute; reflexivity.
Qed.

(** Without the bound on the distance this is false: the entry number is a 32-bit
    variable, and the comparison with the number of entries comes after the truncation.
    An address 2^44 above the table is accepted, and another page is mapped. *)
Theorem xlat_map_far_refuted :
  exists va pa m', va < 2 ^ 64 /\ transient_at xd_regions va = false /\
    xlat_map_page xd_arch xd_page va pa xd_data (x_mem xd_state) = XOk (m', None) /\
    s1_translate false xd_mmu m' va = None /\
    s1_translate false xd_mmu (x_mem xd_state) 0x90000000 = None /\
    s1_translate false xd_mmu m' 0x90000000 = Some (pa, perm_of_attr xd_data).
Proof.
  exists (0x90000000 + 2 ^ 44), 0x5000.
  destruct (xlat_map_page xd_arch xd_page (0x90000000 + 2 ^ 44) 0x5000 xd_data (x_mem xd_state)) as [[m' [e|]]|] eqn:E.
  - exfalso. apply (f_equal (fun r => match r with XOk (_, None) => true | _ => false end)) in E. vm_compute in E. discriminate E.
  - exists m'. split; [reflexivity|]. split; [vm_compute; reflexivity|]. split; [reflexivity|].
    assert (Q : m' = match xlat_map_page xd_arch xd_page (0x90000000 + 2 ^ 44) 0x5000 xd_data (x_mem xd_state) with XOk (m, _) => m | XPanic => x_mem xd_state end)
      by (rewrite E; reflexivity).
    rewrite Q. vm_compute. repeat split.
  - exfalso. apply (f_equal (fun r => match r with XOk (_, None) => true | _ => false end)) in E. vm_compute in E. discriminate E.
Qed.

(** ** C59: the slot buffers of a CPU.  For every history of calls, the results are those
    of 108 slots that hold at most one granule each (SpecSlots.v), an assertion fails in
    the same call, and at the end every upper address translates as it should: a slot to
    its granule, non-secure for slot 0 and in the realm world for the others, the stacks
    to their memory, and nothing else at all.  The check that all slots are empty is
    exact. *)
Theorem slot_buffers_refine : forall A pages eh_top stack_top table mem cfg st mu nslots l,
  pages < 2 ^ 51 -> 4096 <= eh_top < 2 ^ 64 -> pages * 4096 <= stack_top < 2 ^ 64 -> nslots <= 108 -> table + 4096 <= 2 ^ 48 ->
  high_va_setup A pages eh_top stack_top table mem = XOk (inr (cfg, st, Some mu)) ->
  slot_llt A cfg table (x_mem st) = inr l ->
  forall ops, Forall (fun op => op_slot op < 108) ops ->
  match slot_run (slot_code A nslots l) (x_mem st) ops, slot_run (slot_spec (xa_width A) nslots) no_slots ops with
  | Some (m, rs), Some (c, rs') => rs = rs' /\
      (forall va, va < 2 ^ 64 -> s1_translate (xa_lpa2 A) mu m va = high_expect pages eh_top stack_top c va) /\
      (forall b, slots_empty l (N.to_nat nslots) 0 m = Some b -> b = true <-> forall s, s < nslots -> c s = None) /\
      slots_empty l (N.to_nat nslots) 0 m <> None
  | None, None => True
  | _, _ => False
  end.
Proof. exact slots_all. Qed.

(** A CPU with a stack of 5 pages; granules in slots 0 and 3 *)
Definition hv_setup := high_va_setup xd_arch 5 0x88101000 0x88110000 0x8a000000 (fun _ => 0).
Definition hv_st : xst := match hv_setup with XOk (inr (_, st, _)) => st | _ => mkXst (fun _ => 0) 0 end.
Definition hv_mu : xmmu := match hv_setup with XOk (inr (_, _, Some mu)) => mu | _ => xd_mmu end.
Definition hv_llt := mkLlt 0x8a000000 (2 ^ 64 - 2 ^ 21) 0.
Definition hv_ops := [SMap 0 0x40000000; SMap 3 0x88400000; SMap 3 0x88401000; SMap 5 (2 ^ 48); SMap 7 0x1000; SUnmap 7].
Example slot_buffers_example :
  (exists cfg, hv_setup = XOk (inr (cfg, hv_st, Some hv_mu)) /\ slot_llt xd_arch cfg 0x8a000000 (x_mem hv_st) = inr hv_llt) /\
  match slot_run (slot_code xd_arch 40 hv_llt) (x_mem hv_st) hv_ops with
  | Some (m, rs) =>
      rs = [RMapped (2 ^ 64 - 108 * 4096); RMapped (2 ^ 64 - 105 * 4096); RNull; RNull; RMapped (2 ^ 64 - 101 * 4096); RUnmapped (2 ^ 44 - 101)] /\
      map (s1_translate false hv_mu m)
        [2 ^ 64 - 108 * 4096 + 0x123; 2 ^ 64 - 105 * 4096 + 0xfff; 2 ^ 64 - 101 * 4096; 2 ^ 64 - 109 * 4096; 2 ^ 64 - 114 * 4096; 2 ^ 64 - 115 * 4096; 2 ^ 64 - 116 * 4096] =
        [Some (0x40000123, data_perm true); Some (0x88400fff, data_perm false); None; None; Some (0x8810b000, data_perm false); None; Some (0x88100000, data_perm false)] /\
      slots_empty hv_llt 40 0 m = Some false
  | None => False
  end /\
  slots_empty hv_llt 40 0 (x_mem hv_st) = Some true /\
  slot_run (slot_code xd_arch 40 hv_llt) (x_mem hv_st) [SUnmap 2] = None /\
  slot_run (slot_code xd_arch 40 hv_llt) (x_mem hv_st) [SMap 40 0x1000] = None.
Proof.
  split.
  - assert (P : match hv_setup with XOk (inr (cfg, _, Some _)) => match slot_llt xd_arch cfg 0x8a000000 (x_mem hv_st) with inr l => l = hv_llt | inl _ => False end | _ => False end)
      by (vm_compute; reflexivity).
    unfold hv_st, hv_mu in *. destruct hv_setup as [[e|[[cfg st] [mu|]]]|]; try contradiction.
    exists cfg. split; [reflexivity|]. destruct (slot_llt xd_arch cfg 0x8a000000 (x_mem st)); [contradiction|rewrite P; reflexivity].
  - vm_compute. repeat split.
Qed.

Definition xlatdyn_theorems := (@xlat_map_effect, @xlat_unmap_effect, @xlat_map_unmap_succeed, @xlat_static_unchanged, @xlat_dyn_example,
  @xlat_map_far_refuted, @slot_buffers_refine, @slot_buffers_example).
Print Assumptions xlatdyn_theorems.
