(** Model of lib/measurement/src/rim.c: the descriptors that are hashed into the
    realm initial measurement (RIM).

    A descriptor is the list of its fields, in the order of
    measurement_descs.h; fields that are left zero are not listed except where
    they carry information.  [c_hash c alg l] is the digest of the bytes of [l];
    digests are numbers. *)
From Coq Require Import NArith List.
From Verif Require Import Bits S2tte State.
Import ListNotations.
Local Open Scope N_scope.

(** lib/measurement/src/measurement_descs.h *)
Definition MEASURE_DESC_TYPE_DATA : N := 0.
Definition MEASURE_DESC_TYPE_REC : N := 1.
Definition MEASURE_DESC_TYPE_RIPAS : N := 2.
Definition MEASURE_DESC_SIZE : N := 256.

(** smc-rmi.h:249-250 *)
Definition RMI_NO_MEASURE_CONTENT : N := 0.
Definition RMI_MEASURE_CONTENT : N := 1.

(** smc-rmi.h:644-671, struct rmi_realm_params *)
Record rparams := mkRparams {
  p_flags : N; p_s2sz : N; p_sve_vl : N; p_num_bps : N; p_num_wps : N; p_pmu_num_ctrs : N;
  p_algorithm : N; p_rpv : N; p_vmid : N; p_rtt_base : N; p_rtt_level_start : Z; p_rtt_num_start : N
}.

(** smc-rmi.h:678-693, struct rmi_rec_params; [rp_aux] has 16 elements *)
Record rec_params := mkRecParams {
  rp_flags : N; rp_mpidr : N; rp_pc : N; rp_gprs : N -> N; rp_num_aux : N; rp_aux : N -> N
}.

(** rim.c:10-45 *)
Definition measurement_data_granule_measure (c : cfg) (rim alg : N) (data : N -> N) (ipa flags : N) : N :=
  let content := if flags =? RMI_MEASURE_CONTENT then c_hash c alg (map data idx512) else 0 in
  c_hash c alg [MEASURE_DESC_TYPE_DATA; MEASURE_DESC_SIZE; rim; ipa; flags; content].

(** rim.c:47-81 *)
Definition measurement_realm_params_measure (c : cfg) (alg : N) (p : rparams) : N :=
  c_hash c alg [p_flags p; p_s2sz p; p_sve_vl p; p_num_bps p; p_num_wps p; p_pmu_num_ctrs p; p_algorithm p].

(** rim.c:83-123 *)
Definition measurement_rec_params_measure (c : cfg) (rim alg : N) (p : rec_params) : N :=
  let content := c_hash c alg (rp_flags p :: rp_pc p :: map (rp_gprs p) [0; 1; 2; 3; 4; 5; 6; 7]) in
  c_hash c alg [MEASURE_DESC_TYPE_REC; MEASURE_DESC_SIZE; rim; content].

(** rim.c:125-149 *)
Definition measurement_init_ripas_measure (c : cfg) (rim alg base top : N) : N :=
  c_hash c alg [MEASURE_DESC_TYPE_RIPAS; MEASURE_DESC_SIZE; rim; base; top].
