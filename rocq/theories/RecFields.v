(** Assignments to single members of struct rec (runtime/include/rec.h:224-310). *)
From Coq Require Import NArith ZArith List Bool.
From Verif Require Import Bits S2tte State Granule.
Local Open Scope N_scope.

Definition set_runnable (r : recd) (v : bool) : recd :=
  mkRec (r_idx r) v (r_regs r) (r_sp_el0 r) (r_pc r) (r_pstate r) (r_sys r) (r_gic r) (r_vttbr r)
        (r_vtcr r) (r_common_hcr r) (r_mdcr r) (r_set_ripas r) (r_g_rd r) (r_pmu_enabled r)
        (r_pmu_num_ctrs r) (r_algorithm r) (r_simd r) (r_ctx r) (r_last_esr r) (r_last_hpfar r)
        (r_last_far r) (r_psci_pending r) (r_aux r) (r_serror_vsesr r) (r_serror_inject r)
        (r_host_call r).
Definition set_regs (r : recd) (v : N -> N) : recd :=
  mkRec (r_idx r) (r_runnable r) v (r_sp_el0 r) (r_pc r) (r_pstate r) (r_sys r) (r_gic r)
        (r_vttbr r) (r_vtcr r) (r_common_hcr r) (r_mdcr r) (r_set_ripas r) (r_g_rd r)
        (r_pmu_enabled r) (r_pmu_num_ctrs r) (r_algorithm r) (r_simd r) (r_ctx r) (r_last_esr r)
        (r_last_hpfar r) (r_last_far r) (r_psci_pending r) (r_aux r) (r_serror_vsesr r)
        (r_serror_inject r) (r_host_call r).
Definition set_pc (r : recd) (v : N) : recd :=
  mkRec (r_idx r) (r_runnable r) (r_regs r) (r_sp_el0 r) v (r_pstate r) (r_sys r) (r_gic r)
        (r_vttbr r) (r_vtcr r) (r_common_hcr r) (r_mdcr r) (r_set_ripas r) (r_g_rd r)
        (r_pmu_enabled r) (r_pmu_num_ctrs r) (r_algorithm r) (r_simd r) (r_ctx r) (r_last_esr r)
        (r_last_hpfar r) (r_last_far r) (r_psci_pending r) (r_aux r) (r_serror_vsesr r)
        (r_serror_inject r) (r_host_call r).
Definition set_pstate (r : recd) (v : N) : recd :=
  mkRec (r_idx r) (r_runnable r) (r_regs r) (r_sp_el0 r) (r_pc r) v (r_sys r) (r_gic r) (r_vttbr r)
        (r_vtcr r) (r_common_hcr r) (r_mdcr r) (r_set_ripas r) (r_g_rd r) (r_pmu_enabled r)
        (r_pmu_num_ctrs r) (r_algorithm r) (r_simd r) (r_ctx r) (r_last_esr r) (r_last_hpfar r)
        (r_last_far r) (r_psci_pending r) (r_aux r) (r_serror_vsesr r) (r_serror_inject r)
        (r_host_call r).
Definition set_sys (r : recd) (v : sysreg -> N) : recd :=
  mkRec (r_idx r) (r_runnable r) (r_regs r) (r_sp_el0 r) (r_pc r) (r_pstate r) v (r_gic r)
        (r_vttbr r) (r_vtcr r) (r_common_hcr r) (r_mdcr r) (r_set_ripas r) (r_g_rd r)
        (r_pmu_enabled r) (r_pmu_num_ctrs r) (r_algorithm r) (r_simd r) (r_ctx r) (r_last_esr r)
        (r_last_hpfar r) (r_last_far r) (r_psci_pending r) (r_aux r) (r_serror_vsesr r)
        (r_serror_inject r) (r_host_call r).
Definition set_gic (r : recd) (v : gic_state) : recd :=
  mkRec (r_idx r) (r_runnable r) (r_regs r) (r_sp_el0 r) (r_pc r) (r_pstate r) (r_sys r) v
        (r_vttbr r) (r_vtcr r) (r_common_hcr r) (r_mdcr r) (r_set_ripas r) (r_g_rd r)
        (r_pmu_enabled r) (r_pmu_num_ctrs r) (r_algorithm r) (r_simd r) (r_ctx r) (r_last_esr r)
        (r_last_hpfar r) (r_last_far r) (r_psci_pending r) (r_aux r) (r_serror_vsesr r)
        (r_serror_inject r) (r_host_call r).
Definition set_psci_pending (r : recd) (v : bool) : recd :=
  mkRec (r_idx r) (r_runnable r) (r_regs r) (r_sp_el0 r) (r_pc r) (r_pstate r) (r_sys r) (r_gic r)
        (r_vttbr r) (r_vtcr r) (r_common_hcr r) (r_mdcr r) (r_set_ripas r) (r_g_rd r)
        (r_pmu_enabled r) (r_pmu_num_ctrs r) (r_algorithm r) (r_simd r) (r_ctx r) (r_last_esr r)
        (r_last_hpfar r) (r_last_far r) v (r_aux r) (r_serror_vsesr r) (r_serror_inject r)
        (r_host_call r).
Definition set_host_call (r : recd) (v : bool) : recd :=
  mkRec (r_idx r) (r_runnable r) (r_regs r) (r_sp_el0 r) (r_pc r) (r_pstate r) (r_sys r) (r_gic r)
        (r_vttbr r) (r_vtcr r) (r_common_hcr r) (r_mdcr r) (r_set_ripas r) (r_g_rd r)
        (r_pmu_enabled r) (r_pmu_num_ctrs r) (r_algorithm r) (r_simd r) (r_ctx r) (r_last_esr r)
        (r_last_hpfar r) (r_last_far r) (r_psci_pending r) (r_aux r) (r_serror_vsesr r)
        (r_serror_inject r) v.
Definition set_last_esr (r : recd) (v : N) : recd :=
  mkRec (r_idx r) (r_runnable r) (r_regs r) (r_sp_el0 r) (r_pc r) (r_pstate r) (r_sys r) (r_gic r)
        (r_vttbr r) (r_vtcr r) (r_common_hcr r) (r_mdcr r) (r_set_ripas r) (r_g_rd r)
        (r_pmu_enabled r) (r_pmu_num_ctrs r) (r_algorithm r) (r_simd r) (r_ctx r) v (r_last_hpfar r)
        (r_last_far r) (r_psci_pending r) (r_aux r) (r_serror_vsesr r) (r_serror_inject r)
        (r_host_call r).
Definition set_last (r : recd) (esr hpfar far : N) : recd :=
  mkRec (r_idx r) (r_runnable r) (r_regs r) (r_sp_el0 r) (r_pc r) (r_pstate r) (r_sys r) (r_gic r)
        (r_vttbr r) (r_vtcr r) (r_common_hcr r) (r_mdcr r) (r_set_ripas r) (r_g_rd r)
        (r_pmu_enabled r) (r_pmu_num_ctrs r) (r_algorithm r) (r_simd r) (r_ctx r) esr hpfar far
        (r_psci_pending r) (r_aux r) (r_serror_vsesr r) (r_serror_inject r) (r_host_call r).
Definition set_serror (r : recd) (vsesr : N) (inject : bool) : recd :=
  mkRec (r_idx r) (r_runnable r) (r_regs r) (r_sp_el0 r) (r_pc r) (r_pstate r) (r_sys r) (r_gic r)
        (r_vttbr r) (r_vtcr r) (r_common_hcr r) (r_mdcr r) (r_set_ripas r) (r_g_rd r)
        (r_pmu_enabled r) (r_pmu_num_ctrs r) (r_algorithm r) (r_simd r) (r_ctx r) (r_last_esr r)
        (r_last_hpfar r) (r_last_far r) (r_psci_pending r) (r_aux r) vsesr inject (r_host_call r).
Definition set_req (r : recd) (q : set_ripas_req) : recd :=
  mkRec (r_idx r) (r_runnable r) (r_regs r) (r_sp_el0 r) (r_pc r) (r_pstate r) (r_sys r) (r_gic r)
        (r_vttbr r) (r_vtcr r) (r_common_hcr r) (r_mdcr r) q (r_g_rd r) (r_pmu_enabled r)
        (r_pmu_num_ctrs r) (r_algorithm r) (r_simd r) (r_ctx r) (r_last_esr r) (r_last_hpfar r)
        (r_last_far r) (r_psci_pending r) (r_aux r) (r_serror_vsesr r) (r_serror_inject r)
        (r_host_call r).

(** One general purpose or system register *)
Definition set_reg (r : recd) (i v : N) : recd := set_regs r (upd (r_regs r) i v).
Definition set_sysreg (r : recd) (x : sysreg) (v : N) : recd := set_sys r (upd_sys (r_sys r) x v).
