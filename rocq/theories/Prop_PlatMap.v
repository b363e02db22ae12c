(** C79, C80: the memory that the monitor can reach while it runs (plat_cmn_setup, plat_setup). *)
From Coq Require Import NArith List Bool Lia.
From Verif Require Import Bits Xlat SpecXlat XlatCfg PlatMap SpecPlatMap PlatMapFacts.
Import ListNotations.
Local Open Scope N_scope.

(** ** The example: an image at 2 GB, the shared buffer elsewhere and a UART below it *)
Definition pm_arch := mkXarch false 48.
Definition pm_image := mkImage 0x88000000 0x88030000 0x88030000 0x88036000 0x88036000 0x88060000.
Definition pm_shared : N := 0x9ffff000.
Definition pm_uart : N := 0x1c090000.
Definition pm_tables := mkTbls 0x88040000 6.
Definition pm_mem : N -> N := fun _ => 0.
Definition pm_result (console : option N) : plat_res := arm_setup pm_arch 38 pm_image pm_shared pm_tables pm_mem console.
Definition pm_cfg (console : option N) : xcfg := match pm_result console with POk cfg _ => cfg | _ => mkCfg 0 [] 0 0 LowRegion end.
Definition pm_state (console : option N) : xst := match pm_result console with POk _ st => st | _ => mkXst pm_mem 0 end.
Definition pm_mmu : xmmu := mkMmu LowRegion 26 0x88040001.

Lemma pm_boots : forall console, (match pm_result console with POk _ _ => true | _ => false end) = true ->
  pm_result console = POk (pm_cfg console) (pm_state console).
Proof. intros console H. unfold pm_cfg, pm_state. destruct (pm_result console); try discriminate H. reflexivity. Qed.

(** ** With a console, for every address: code can be executed and not written, constants
    can only be read, data, the shared buffer and the registers of the console can be
    written and not executed, and any other address faults. *)
Theorem plat_memory_map : forall A width im shared_pa T mem base cfg st mu va,
  image64 im -> shared_pa < 2 ^ 64 -> base < 2 ^ 64 -> t_tables T + 4096 * t_num T <= 2 ^ 48 ->
  arm_setup A width im shared_pa T mem (Some base) = POk cfg st ->
  setup_mmu_cfg A cfg T = Some mu -> va < 2 ^ 64 ->
  s1_translate (xa_lpa2 A) mu (x_mem st) va = console_map im shared_pa base va.
Proof. exact arm_map_all. Qed.

Example plat_memory_map_example :
  image64 pm_image /\ arm_setup pm_arch 38 pm_image pm_shared pm_tables pm_mem (Some pm_uart) = POk (pm_cfg (Some pm_uart)) (pm_state (Some pm_uart)) /\
  setup_mmu_cfg pm_arch (pm_cfg (Some pm_uart)) pm_tables = Some pm_mmu /\
  map (s1_translate false pm_mmu (x_mem (pm_state (Some pm_uart))))
    [0; 0x1c090018; 0x1c091000; 0x88000000; 0x88030000; 0x8805ffff; 0x88060000; 0x88061008; 0x88062000] =
  [None; Some (0x1c090018, perm_dev); None; Some (0x88000000, perm_code); Some (0x88030000, perm_ro); Some (0x8805ffff, perm_rw);
   None; Some (0x9ffff008, perm_rw); None].
Proof.
  split; [repeat split|]. split; [apply pm_boots; vm_compute; reflexivity|]. split; vm_compute; reflexivity.
Qed.

(** ** The setup succeeds only when the sections follow each other and the page of the
    console is before or after all of them, so that the page between the data and the
    shared buffer faults: an access that runs over the end of the data, or under the
    start of the buffer, is detected. *)
Theorem plat_guard_page : forall A width im shared_pa T mem base cfg st mu va,
  image64 im -> shared_pa < 2 ^ 64 -> base < 2 ^ 64 -> t_tables T + 4096 * t_num T <= 2 ^ 48 ->
  arm_setup A width im shared_pa T mem (Some base) = POk cfg st ->
  setup_mmu_cfg A cfg T = Some mu ->
  in_order im /\ (base + 4096 <= im_code_start im \/ im_rw_end im + 8192 <= base) /\
  (im_rw_end im <= va < im_rw_end im + 4096 -> va < 2 ^ 64 -> s1_translate (xa_lpa2 A) mu (x_mem st) va = None).
Proof.
  intros A width im p T mem base cfg st mu va I P B TL E M.
  assert (BB : forall b, Some base = Some b -> b < 2 ^ 64) by (intros b K; assert (b = base) by congruence; subst b; exact B).
  destruct (mmu_facts _ _ _ _ M) as (W & _).
  destruct (arm_order _ _ _ _ _ _ _ _ _ W I P BB E) as (OR & AP). split; [exact OR|]. split; [exact AP|]. intros V Hva.
  rewrite (arm_map_all _ _ _ _ _ _ _ _ _ _ va I P B TL E M Hva). unfold console_map, image_map.
  destruct OR as (O1 & O2 & O3 & O4 & O5). cbv iota zeta in AP.
  repeat match goal with |- context[if ?b then _ else _] => replace b with false by (clear - V O1 O2 O3 O4 O5 AP; lia) end. reflexivity.
Qed.

Example plat_guard_page_example :
  map (s1_translate false pm_mmu (x_mem (pm_state (Some pm_uart)))) [0x8805ffff; 0x88060000; 0x88060fff; 0x88061000] =
  [Some (0x8805ffff, perm_rw); None; None; Some (0x9ffff000, perm_rw)].
Proof. vm_compute. reflexivity. Qed.

(** ** C80: every address of the first page faults, so that the use of a null pointer is
    detected.  Proved for a console that is not in the first page; missing is the case
    without a console, where it is false. *)
Theorem plat_null_faults_partial : forall A width im shared_pa T mem base cfg st mu va,
  image64 im -> shared_pa < 2 ^ 64 -> base < 2 ^ 64 -> t_tables T + 4096 * t_num T <= 2 ^ 48 ->
  arm_setup A width im shared_pa T mem (Some base) = POk cfg st ->
  setup_mmu_cfg A cfg T = Some mu -> 4096 <= im_code_start im -> 4096 <= base -> va < 4096 ->
  s1_translate (xa_lpa2 A) mu (x_mem st) va = None.
Proof.
  intros A width im p T mem base cfg st mu va I P B TL E M C1 C2 V.
  destruct (plat_guard_page _ _ _ _ _ _ _ _ _ _ va I P B TL E M) as ((O1 & O2 & O3 & O4 & O5) & _).
  rewrite (arm_map_all _ _ _ _ _ _ _ _ _ _ va I P B TL E M ltac:(clear - V; lia)). unfold console_map, image_map.
  repeat match goal with |- context[if ?b then _ else _] => replace b with false by (clear - V O1 O2 O3 O4 O5 C1 C2; lia) end. reflexivity.
Qed.

Example plat_null_faults_example :
  4096 <= im_code_start pm_image /\ 4096 <= pm_uart /\
  map (s1_translate false pm_mmu (x_mem (pm_state (Some pm_uart)))) [0; 8; 4095] = [None; None; None].
Proof. vm_compute. repeat split; discriminate. Qed.

(** Without a console the page at address 0 is mapped all the same: a write through a null
    pointer goes to physical address 0. *)
Theorem plat_null_refuted : exists im cfg st mu,
  image64 im /\ 4096 <= im_code_start im /\
  arm_setup pm_arch 38 im pm_shared pm_tables pm_mem None = POk cfg st /\
  setup_mmu_cfg pm_arch cfg pm_tables = Some mu /\
  s1_translate false mu (x_mem st) 0 = Some (0, perm_dev) /\ p_write perm_dev = true.
Proof.
  exists pm_image, (pm_cfg None), (pm_state None), pm_mmu. split; [repeat split|]. split; [vm_compute; discriminate|].
  split; [apply pm_boots; vm_compute; reflexivity|]. split; [vm_compute; reflexivity|]. split; [vm_compute; reflexivity|reflexivity].
Qed.

(** ** Any platform: whatever regions it adds, it cannot change how the image and the shared
    buffer are mapped, and outside of them its regions, and only those, are mapped. *)
Theorem plat_common_map : forall A extra width im shared_pa T mem plat nregions cfg st mu va,
  image64 im -> shared_pa < 2 ^ 64 -> (forall l, plat = Some l -> Forall region64 l) -> t_tables T + 4096 * t_num T <= 2 ^ 48 ->
  plat_cmn_setup A extra width im shared_pa T mem plat nregions = POk cfg st ->
  setup_mmu_cfg A cfg T = Some mu -> va < 2 ^ 64 ->
  s1_translate (xa_lpa2 A) mu (x_mem st) va =
  match image_map im shared_pa va with
  | Some x => Some x
  | None => match plat with Some l => s1_expect (firstn (N.to_nat nregions) l) va | None => None end
  end.
Proof. exact cmn_map_all. Qed.

(** Two devices after the image; one that overlaps the data is rejected, as is a null pointer
    and more regions than the array has entries for *)
Definition pm_two : list mmap_region :=
  [mkMm 0x1c090000 0x90000000 0x1000 (N.lor MT_DEVICE MT_RW) 0x1000; mkMm 0x1c0a0000 0x90001000 0x2000 (N.lor MT_DEVICE MT_RW) 0x1000].
Definition pm_cmn (plat : option (list mmap_region)) (n : N) : plat_res := plat_cmn_setup pm_arch 2 38 pm_image pm_shared pm_tables pm_mem plat n.
Example plat_common_map_example :
  match pm_cmn (Some pm_two) 2 with
  | POk cfg st => map (s1_translate false pm_mmu (x_mem st)) [0x88000004; 0x90000008; 0x90001000; 0x90003000]
  | _ => []
  end = [Some (0x88000004, perm_code); Some (0x1c090008, perm_dev); Some (0x1c0a0000, perm_dev); None] /\
  (match pm_cmn None 0 with POk _ _ => true | _ => false end) = true /\
  pm_cmn None 1 = PErr X_EINVAL /\ pm_cmn (Some pm_two) 3 = PErr X_ERANGE /\
  (match pm_result (Some 0x88050000) with PErr e => Some e | _ => None end) = Some X_EPERM /\
  (match pm_result (Some 0x1c090010) with PErr e => Some e | _ => None end) = Some X_EFAULT.
Proof. vm_compute. repeat split. Qed.

(** ** The array of the regions, with room for four and for those that the platform was
    built with, is never overrun, and a null pointer is not followed. *)
Theorem plat_regions_fit : forall A extra width im shared_pa T mem plat nregions cfg st, xa_width A <= 52 ->
  image64 im -> shared_pa < 2 ^ 64 -> (forall l, plat = Some l -> Forall region64 l) ->
  plat_cmn_setup A extra width im shared_pa T mem plat nregions = POk cfg st ->
  N.of_nat (length (c_mmap cfg)) <= 4 + extra /\ (nregions <> 0 -> plat <> None).
Proof. exact fit_all. Qed.

Example plat_regions_fit_example :
  match pm_cmn (Some pm_two) 2 with POk cfg _ => length (c_mmap cfg) | _ => 0%nat end = 6%nat.
Proof. vm_compute. reflexivity. Qed.

(** ** No good layout is rejected, with the console below or above the image: an error is
    only returned for tables that are missing or not aligned.  (With too few tables an
    assertion fails, see xlat_init_result.) *)
Theorem plat_layout_accepted : forall A width im shared_pa T mem base e, xa_width A <= 52 -> 16 <= width <= 48 ->
  good_layout width (xa_width A) im shared_pa base -> t_tables T + 4096 * t_num T <= 2 ^ 48 ->
  arm_setup A width im shared_pa T mem (Some base) = PErr e -> t_num T = 0 \/ t_tables T mod 4096 <> 0.
Proof. exact accepts_all. Qed.

Example plat_layout_accepted_example :
  good_layout 38 48 pm_image pm_shared pm_uart /\ good_layout 38 48 pm_image pm_shared 0x90000000 /\
  (match pm_result (Some 0x90000000) with POk _ _ => true | _ => false end) = true /\
  arm_setup pm_arch 38 pm_image pm_shared (mkTbls 0x88040000 0) pm_mem (Some pm_uart) = PErr X_EINVAL.
Proof.
  assert (G : forall b, b = pm_uart \/ b = 0x90000000 -> good_layout 38 48 pm_image pm_shared b).
  { intros b Hb. unfold good_layout, in_order, pm_image, pm_shared.
    cbn [im_code_start im_code_end im_ro_start im_ro_end im_rw_start im_rw_end].
    destruct Hb as [-> | ->]; unfold pm_uart; repeat split; try reflexivity; lia. }
  split; [apply G; left; reflexivity|]. split; [apply G; right; reflexivity|]. split; vm_compute; reflexivity.
Qed.

Definition plat_map_theorems :=
  (@plat_memory_map, @plat_memory_map_example, @plat_guard_page, @plat_guard_page_example, @plat_null_faults_partial, @plat_null_faults_example,
   @plat_null_refuted, @plat_common_map, @plat_common_map_example,
   @plat_regions_fit, @plat_regions_fit_example, @plat_layout_accepted, @plat_layout_accepted_example).
Print Assumptions plat_map_theorems.
