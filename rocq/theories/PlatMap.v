(** Model of the memory map that the monitor runs with: plat/common/src/plat_common_init.c
    (plat_cmn_setup) and the part of plat/arm/src/arm_setup.c (plat_setup) that chooses the
    region of the console.  Both end in the translation library, modelled in Xlat.v.

    Not modelled: the calls to the UART driver and to EL3, the GIC features that
    plat_cmn_setup reads at its end, and the DRAM layout. *)
From Coq Require Import NArith List Bool.
From Verif Require Import Bits Xlat.
Import ListNotations.
Local Open Scope N_scope.

(** plat_common_init.c:27-32: the addresses that the linker gives to the sections *)
Record image := mkImage {
  im_code_start : N; im_code_end : N;
  im_ro_start : N; im_ro_end : N;
  im_rw_start : N; im_rw_end : N
}.

(** The size of a section: the difference of two 64-bit words (plat_common_init.c:37-39) *)
Definition sub64 (x y : N) : N := wrap64 (x + (2 ^ 64 - y)).

(** lib/xlat/include/xlat_tables.h:43: REGION_DEFAULT_GRANULARITY *)
Definition default_gran (A : xarch) : N := block_size (max_block_height A).
(** xlat_tables.h:60-61: MAP_REGION *)
Definition map_region (A : xarch) (pa va size attr : N) : mmap_region := mkMm pa va size attr (default_gran A).
(** xlat_tables.h:64-65: MAP_REGION_FLAT *)
Definition map_flat (A : xarch) (adr size attr : N) : mmap_region := map_region A adr adr size attr.

(** xlat_tables.h:166: MT_RO_DATA.  MT_RO, MT_EXECUTE and MT_REALM (146-160) are 0. *)
Definition MT_RO_DATA : N := N.lor MT_MEMORY MT_EXECUTE_NEVER.

(** plat_common_init.c:60: RMM_SHARED_BUFFER_START, which is also what EL3's buffer is
    accessed at (plat/common/src/aarch64/plat_cmn_arch.h:11) *)
Definition shared_va (im : image) : N := wrap64 (im_rw_end im + 4096).
(** lib/rmm_el3_ifc/include/rmm_el3_ifc.h:198-201: rmm_el3_ifc_get_shared_buf_size *)
Definition shared_size : N := 4096.

(** plat_common_init.c:41-71, 122-127, 138-140: the common regions *)
Definition common_regions (A : xarch) (im : image) (shared_pa : N) : list mmap_region :=
  [map_flat A (im_code_start im) (sub64 (im_code_end im) (im_code_start im)) MT_CODE;
   map_flat A (im_ro_start im) (sub64 (im_ro_end im) (im_ro_start im)) MT_RO_DATA;
   map_flat A (im_rw_start im) (sub64 (im_rw_end im) (im_rw_start im)) MT_RW_DATA;
   map_region A shared_pa (shared_va im) shared_size MT_RW_DATA].

(** How the setup ends: an error code, an assertion that fails in the library, or the
    configuration and the tables of the runtime context *)
Inductive plat_res := PErr (e : xerr) | PAssert | POk (cfg : xcfg) (st : xst).

(** plat_common_init.c:145-162: the array that is passed to the library.  The regions of
    the platform come first when the first of them starts below the code. *)
Definition merge_regions (A : xarch) (im : image) (shared_pa : N) (plat : list mmap_region) : list mmap_region :=
  match plat with
  | [] => common_regions A im shared_pa
  | r :: _ => if mm_va r <? im_code_start im
              then plat ++ common_regions A im shared_pa
              else common_regions A im shared_pa ++ plat
  end.

(** plat_common_init.c:116-190: plat_cmn_setup, at cold boot.  [extra] is
    PLAT_CMN_EXTRA_MMAP_REGIONS, [width] PLAT_CMN_VIRT_ADDR_SPACE_WIDTH, [plat] is None for
    a null pointer and else the array, of which [nregions] entries are used. *)
Definition plat_cmn_setup (A : xarch) (extra width : N) (im : image) (shared_pa : N) (T : xtbls) (mem : N -> N)
    (plat : option (list mmap_region)) (nregions : N) : plat_res :=
  if extra <? nregions then PErr X_ERANGE
  else
    match (if nregions =? 0 then Some [] else plat) with
    | None => PErr X_EINVAL
    | Some l =>
        match xlat_ctx_cfg_init A false LowRegion (merge_regions A im shared_pa (firstn (N.to_nat nregions) l)) (2 ^ width) with
        | (_, inl e) => PErr e
        | (_, inr cfg) =>
            match xlat_ctx_init A false cfg T mem with
            | XPanic => PAssert
            | XOk (inl e) => PErr e
            | XOk (inr st) => POk cfg st
            end
        end
    end.

(** plat/arm/src/arm_setup.c:17-20, 60-63, 77-101: the region of the console.  [console] is
    the base address of the first console of the manifest, None when it has none. *)
Definition arm_plat_regions (A : xarch) (console : option N) : list mmap_region :=
  let r := map_flat A 0 4096 (N.lor MT_DEVICE MT_RW) in
  let r := match console with
           | Some base => mkMm base base (mm_size r) (mm_attr r) (mm_gran r)
           | None => r
           end in
  [r; mkMm 0 0 0 0 0].

(** arm_setup.c:103: plat_setup up to the common setup; plat/arm/CMakeLists.txt:20 allows
    one region *)
Definition arm_setup (A : xarch) (width : N) (im : image) (shared_pa : N) (T : xtbls) (mem : N -> N)
    (console : option N) : plat_res :=
  plat_cmn_setup A 1 width im shared_pa T mem (Some (arm_plat_regions A console)) 1.
