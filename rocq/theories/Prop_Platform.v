(** C32 and C47: the boot manifest and the translation between granule addresses and
    granule descriptors. *)
From Coq Require Import NArith ZArith List Bool Lia.
From Verif Require Import Bits State Spec Platform SpecPlatform SpecBoot PlatformFacts PlatformBoot.
Import ListNotations.
Local Open Scope N_scope.

(** ** C47 *)

(** A manifest is accepted exactly if the part about DRAM is right: banks are granule
    aligned, not empty, ascending without overlap, within the physical address range, not
    too many, and the words of the table sum up to 0.  What is missing to the full
    property: banks that wrap around the end of the 64-bit address space (see
    [C47_refuted]). *)
Theorem C47_dram_partial : forall p ld mf r,
  mem64 ld -> table_in_memory (mf_banks mf) (mf_num_banks mf) -> banks_end (manifest_banks ld mf) ->
  p_pa_width p <= 63 -> p_max_banks p < 2 ^ 48 ->
  get_dram_data_validated p ld mf = BOk r <->
  r = (mf_num_banks mf, mf_banks mf) /\ dram_manifest_ok p ld mf.
Proof. exact dram_exact. Qed.

(** Ascending banks do not overlap *)
Theorem C47_disjoint : forall w bs, dram_ok w bs -> disjoint_banks bs.
Proof. intros w bs H. apply ascending_disjoint, H. Qed.

(** The same for the table of consoles, if its size in bytes is a 64-bit number *)
Theorem C47_consoles_partial : forall ld mf r,
  mem64 ld -> mf_consoles mf + 48 * mf_num_consoles mf <= 2 ^ 64 -> 48 * mf_num_consoles mf < 2 ^ 64 ->
  get_console_list ld mf = BOk r <-> r = (mf_num_consoles mf, mf_consoles mf) /\ consoles_ok ld mf.
Proof. exact consoles_exact. Qed.

(** The arguments of the boot call are accepted exactly if they are right *)
Theorem C47_arguments : forall p ld x0 x1 x2 x3,
  (exists mf, el3_ifc_init p ld x0 x1 x2 x3 = BOk mf) <->
  boot_args_ok p x0 x1 x2 x3 /\ vers_compatible (mf_version (read_manifest ld x3)) = true.
Proof. exact args_exact. Qed.

(** The layout that results from boot is the one for the banks of the manifest *)
Theorem C47_boot_partial : forall p ld x0 x1 x2 x3 ly, let mf := read_manifest ld x3 in
  mem64 ld -> table_in_memory (mf_banks mf) (mf_num_banks mf) -> banks_end (manifest_banks ld mf) ->
  p_pa_width p <= 52 -> p_max_banks p < 2 ^ 48 -> p_max_granules p <= 2 ^ 40 ->
  boot p ld x0 x1 x2 x3 = BOk ly ->
  boot_args_ok p x0 x1 x2 x3 /\ dram_manifest_ok p ld mf /\ layout_for p (manifest_banks ld mf) ly.
Proof. exact boot_layout. Qed.

(** A platform as in configs/fvp_defcfg.cmake and a manifest at 4096 with two banks at
    8192 *)
Definition ex_plat : plat := mkPlat 16 4 1048576 48.
Definition ex_words (banks : list (N * N)) (a : N) : N :=
  let words := concat (map (fun b => [fst b; snd b]) banks) in
  let n := N.of_nat (length banks) in
  if a =? 4096 then 3
  else if a =? 4112 then n
  else if a =? 4120 then 8192
  else if a =? 4128 then (4 * 2 ^ 64 - (n + 8192 + fold_right N.add 0 words)) mod 2 ^ 64
  else if a <? 8192 then 0
  else nth (N.to_nat (a - 8192) / 8) words 0.
Definition ex_banks : list (N * N) := [(2147483648, 2080374784); (36507222016, 2147483648)].
Definition ex_ld : N -> N := ex_words ex_banks.
Definition ex_mf : manifest := read_manifest ex_ld 4096.
Definition ex_layout : layout := mkLayout 1032192 [mkBank 2147483648 2080374784 0; mkBank 36507222016 2147483648 507904].

Example C47_example :
  get_dram_data_validated ex_plat ex_ld ex_mf = BOk (2, 8192) /\ manifest_banks ex_ld ex_mf = ex_banks /\
  get_console_list ex_ld ex_mf = BOk (0, 0) /\ boot ex_plat ex_ld 0 3 8 4096 = BOk ex_layout /\
  get_dram_data_validated ex_plat (ex_words [(36507222016, 2147483648); (2147483648, 2080374784)])
    (read_manifest (ex_words [(36507222016, 2147483648); (2147483648, 2080374784)]) 4096) = BFail (-7) /\
  get_dram_data_validated ex_plat ex_ld (mkManifest 3 0 2 8192 0 0 0 0) = BFail (-7) /\
  boot ex_plat ex_ld 8 3 8 4096 = BFail (-4).
Proof. vm_compute. repeat split. Qed.

(** The property fails for banks that wrap around: they are accepted although they are
    beyond the address range of the platform and overlap, rmm_el3_ifc_manifest.c:155. *)
Theorem C47_refuted : exists p ld mf r,
  get_dram_data_validated p ld mf = BOk r /\
  ~ disjoint_banks (manifest_banks ld mf) /\ ~ ascending (manifest_banks ld mf) /\
  (forall b, In b (manifest_banks ld mf) -> 2 ^ p_pa_width p < fst b).
Proof.
  exists ex_plat, (ex_words [(2 ^ 64 - 4096, 8192); (2 ^ 64 - 4096, 8192)]),
    (read_manifest (ex_words [(2 ^ 64 - 4096, 8192); (2 ^ 64 - 4096, 8192)]) 4096), (2, 8192).
  assert (E : manifest_banks (ex_words [(2 ^ 64 - 4096, 8192); (2 ^ 64 - 4096, 8192)])
    (read_manifest (ex_words [(2 ^ 64 - 4096, 8192); (2 ^ 64 - 4096, 8192)]) 4096) = [(2 ^ 64 - 4096, 8192); (2 ^ 64 - 4096, 8192)])
    by (vm_compute; reflexivity).
  rewrite E. split; [vm_compute; reflexivity|]. split; [|split].
  - intros H. apply (H 0%nat 1%nat _ _ (2 ^ 64 - 4096) ltac:(discriminate) eq_refl eq_refl).
    unfold in_bank. cbn [fst snd]. lia.
  - intros H. pose proof (H 0%nat 1%nat _ _ ltac:(auto) eq_refl eq_refl) as K. cbn [fst snd] in K. lia.
  - intros b [<-|[<-|[]]]; cbn [fst p_pa_width ex_plat]; lia.
Qed.

(** The size of the table of consoles is computed with 64 bits: for 2^60 consoles the
    checksum is computed over no console at all, rmm_el3_ifc_manifest.c:228. *)
Theorem C47_consoles_refuted : exists ld mf r, mem64 ld /\ get_console_list ld mf = BOk r /\
  mf_num_consoles mf = 2 ^ 60 /\ forall a, ld a = 1.
Proof.
  exists (fun _ => 1), (mkManifest 3 0 1 8192 0 (2 ^ 60) 8192 (2 ^ 64 - 2 ^ 60 - 8192)), (2 ^ 60, 8192).
  split; [intros a; reflexivity|]. split; [vm_compute; reflexivity|]. split; reflexivity.
Qed.

(** ** C32 *)

(** Every supported table of well-formed banks has a layout *)
Theorem C32_exists : forall p ld bs ptr, mem64 ld -> table_in_memory ptr (N.of_nat (length bs)) ->
  bs = banks_at ld ptr (N.of_nat (length bs)) -> dram_ok (p_pa_width p) bs -> p_pa_width p <= 52 ->
  N.of_nat (length bs) <= p_max_banks p -> total_granules bs <= p_max_granules p -> p_max_granules p <= 2 ^ 40 ->
  exists ly, layout_for p bs ly.
Proof. exact layout_exists. Qed.

(** The index of a granule of DRAM is the number of granules of DRAM below it, and leads
    back to it *)
Theorem C32_index : forall p bs ly, layout_for p bs ly -> forall a, dram_granule bs a ->
  addr_to_idx p ly a = BOk (granules_below bs a) /\ granules_below bs a < total_granules bs /\
  idx_to_addr p ly (granules_below bs a) = BOk a.
Proof. exact for_in. Qed.

(** Every index is the index of a granule *)
Theorem C32_address : forall p bs ly, layout_for p bs ly -> forall i, i < total_granules bs ->
  exists a, dram_granule bs a /\ idx_to_addr p ly i = BOk a /\ addr_to_idx p ly a = BOk i.
Proof. exact for_idx. Qed.

(** Every other address is rejected *)
Theorem C32_rejects : forall p bs ly, layout_for p bs ly -> forall a, a < 2 ^ 64 -> ~ dram_granule bs a ->
  addr_to_idx p ly a = BOk (2 ^ 64 - 1) /\ find_granule_desc p ly a = BOk None.
Proof. exact for_out. Qed.

Theorem C32_injective : forall p bs ly, layout_for p bs ly -> forall a a' i, a < 2 ^ 64 -> a' < 2 ^ 64 -> i < total_granules bs ->
  addr_to_idx p ly a = BOk i -> addr_to_idx p ly a' = BOk i -> a = a'.
Proof. exact for_inj. Qed.

(** Indices grow with addresses, and granules with none between them have consecutive
    indices *)
Theorem C32_consecutive : forall p bs ly, layout_for p bs ly -> forall a a' i i',
  dram_granule bs a -> dram_granule bs a' -> a < a' ->
  addr_to_idx p ly a = BOk i -> addr_to_idx p ly a' = BOk i' ->
  i < i' /\ ((forall x, dram_granule bs x -> ~ (a < x < a')) <-> i' = i + 1).
Proof. exact for_next. Qed.

(** A descriptor is found exactly for the granules of DRAM; it is in the array, and it is
    the one that leads back to the address *)
Theorem C32_descriptor : forall p bs ly, layout_for p bs ly -> forall a g, a < 2 ^ 64 ->
  find_granule_desc p ly a = BOk (Some g) <->
  dram_granule bs a /\ g < p_max_granules p /\ granule_addr p ly g = BOk a /\ addr_to_granule p ly a = BOk g.
Proof. exact for_find. Qed.

(** The platform that the rest of the model is about is what boot sets up: the addresses
    for which a descriptor is found are as [cfg_ok] demands *)
Theorem C32_platform : forall p bs ly c, layout_for p bs ly ->
  (forall a, c_gran c a = true -> a < 2 ^ 64 /\ exists g, find_granule_desc p ly a = BOk (Some g)) -> cfg_ok c.
Proof.
  intros p bs ly c H Hc a Ha. destruct (Hc a Ha) as (L & g & F). apply (for_find p bs ly H a g L) in F.
  destruct F as ((_ & b & Hb & Hin) & _). destruct H as (ld & ptr & _ & _ & _ & (_ & _ & _ & E) & W & _).
  rewrite Forall_forall in E. pose proof (E b Hb) as Eb. cbv beta in Eb. unfold in_bank in Hin.
  assert (2 ^ p_pa_width p <= 2 ^ 52) by (apply N.pow_le_mono_r; [discriminate|exact W]). lia.
Qed.

Example C32_example :
  layout_for ex_plat ex_banks ex_layout /\
  map (addr_to_idx ex_plat ex_layout) [2147483648; 2147487744; 2147483649; 4227854336; 4227858432; 36507222016; 0; 38654705664]
  = [BOk 0; BOk 1; BOk UINT64_MAX; BOk 507903; BOk UINT64_MAX; BOk 507904; BOk UINT64_MAX; BOk UINT64_MAX] /\
  map (idx_to_addr ex_plat ex_layout) [0; 507903; 507904; 1032191] = [BOk 2147483648; BOk 4227854336; BOk 36507222016; BOk 38654701568].
Proof.
  split; [|vm_compute; split; reflexivity].
  exists (fun a => if 8192 <=? a then nth (N.to_nat ((a - 8192) / 8)) [2147483648; 2080374784; 36507222016; 2147483648] 0 else 0), 8192.
  split.
  - intros a. destruct (8192 <=? a); [|reflexivity].
    destruct (N.to_nat ((a - 8192) / 8)) as [|[|[|[|[|n]]]]]; reflexivity.
  - split; [vm_compute; discriminate|]. split; [vm_compute; reflexivity|]. split.
    + split; [discriminate|]. split; [repeat constructor; discriminate|]. split; [|repeat constructor; discriminate].
      intros i j b b' L Hi Hj. destruct i as [|[|i]]; [|destruct j as [|[|[|j]]]; try lia; discriminate|destruct i; discriminate].
      destruct j as [|[|j]]; [lia| |destruct j; discriminate]. injection Hi as <-. injection Hj as <-. discriminate.
    + split; [discriminate|]. split; [vm_compute; discriminate|]. split; [vm_compute; discriminate|]. vm_compute. reflexivity.
Qed.

Definition platform_theorems :=
  (@C47_dram_partial, @C47_disjoint, @C47_consoles_partial, @C47_arguments, @C47_boot_partial, @C47_refuted,
   @C47_consoles_refuted, @C32_exists, @C32_index, @C32_address, @C32_rejects, @C32_injective, @C32_consecutive,
   @C32_descriptor, @C32_platform, C47_example, C32_example).
Print Assumptions platform_theorems.
