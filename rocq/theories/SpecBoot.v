(** What the boot code has to accept, and layouts it sets up. *)
From Coq Require Import NArith ZArith List Bool.
From Verif Require Import Bits Platform SpecPlatform.
Import ListNotations.
Local Open Scope N_scope.

(** The banks of a manifest *)
Definition manifest_banks (ld : N -> N) (mf : manifest) : list dram_bank := banks_at ld (mf_banks mf) (mf_num_banks mf).

(** The part of a manifest about DRAM is right: known version, a number of banks the
    platform supports, well-formed banks of no more granules than it supports, and all
    words of the table and of its header sum up to 0 *)
Definition dram_manifest_ok (p : plat) (ld : N -> N) (mf : manifest) : Prop :=
  2 <= mf_version mf /\
  1 <= mf_num_banks mf <= p_max_banks p /\ mf_banks mf <> 0 /\ mf_banks mf mod 8 = 0 /\
  dram_ok (p_pa_width p) (manifest_banks ld mf) /\
  (mf_num_banks mf + mf_banks mf + mf_dram_sum mf + words_sum ld (mf_banks mf) (2 * mf_num_banks mf)) mod 2 ^ 64 = 0 /\
  total_granules (manifest_banks ld mf) <= p_max_granules p.

(** The words of the table of consoles and of its header sum up to 0; a console has
    six words *)
Definition consoles_ok (ld : N -> N) (mf : manifest) : Prop :=
  3 <= mf_version mf /\ mf_consoles mf mod 8 = 0 /\
  (mf_num_consoles mf + mf_consoles mf + mf_console_sum mf + words_sum ld (mf_consoles mf) (6 * mf_num_consoles mf)) mod 2 ^ 64 = 0.

(** The arguments of the boot call are right: interface version 0.3 or a later minor
    version, a known CPU, a page for the shared buffer *)
Definition boot_args_ok (p : plat) (x0 x1 x2 x3 : N) : Prop :=
  (x1 / 2 ^ 16) mod 2 ^ 15 = 0 /\ 3 <= x1 mod 2 ^ 16 /\
  x0 < x2 <= p_max_cpus p /\ x3 <> 0 /\ x3 mod 4096 = 0.

(** [ly] is set up for the banks [bs]: they are well-formed and the platform supports
    them *)
Definition layout_for (p : plat) (bs : list dram_bank) (ly : layout) : Prop :=
  exists ld ptr, mem64 ld /\ table_in_memory ptr (N.of_nat (length bs)) /\
  bs = banks_at ld ptr (N.of_nat (length bs)) /\ dram_ok (p_pa_width p) bs /\ p_pa_width p <= 52 /\
  total_granules bs <= p_max_granules p /\ p_max_granules p <= 2 ^ 40 /\
  set_dram_layout p ld (N.of_nat (length bs)) ptr = BOk ly.
