(** Model of the virtual interrupt state exchanged with the host on REC entry
    and exit, lib/gic/src/gic.c:65-230, and of the two structures of the REC
    run object, lib/smc/include/smc-rmi.h:698-798. *)
From Coq Require Import NArith ZArith List Bool.
From Verif Require Import Bits S2tte State Granule RecFields RmiRec.
Import ListNotations.
Local Open Scope N_scope.

(** smc-rmi.h:698-709, struct rmi_rec_enter; entries of arrays above their
    length are never used *)
Record rec_enter := mkEnter {
  en_flags : N;
  en_gprs : N -> N;
  en_gicv3_hcr : N;
  en_gicv3_lrs : N -> N
}.

(** smc-rmi.h:733-798, struct rmi_rec_exit.  The members this version never sets
    (flags, ripas_dev_pa, s2ap_*, vdev*, plane) are left out: they are always 0. *)
Record rec_exit := mkExit {
  ex_reason : N; ex_esr : N; ex_far : N; ex_hpfar : N; ex_gprs : N -> N;
  ex_gicv3_hcr : N; ex_gicv3_lrs : N -> N; ex_gicv3_misr : N; ex_gicv3_vmcr : N;
  ex_cntp_ctl : N; ex_cntp_cval : N; ex_cntv_ctl : N; ex_cntv_cval : N;
  ex_ripas_base : N; ex_ripas_top : N; ex_ripas_value : N;
  ex_imm : N; ex_pmu_ovf : N
}.
Definition exit_zero : rec_exit :=
  mkExit 0 0 0 0 (fun _ => 0) 0 (fun _ => 0) 0 0 0 0 0 0 0 0 0 0 0.

(** Assignments to members of rmi_rec_exit *)
Definition ex_set_reason (e : rec_exit) (v : N) : rec_exit :=
  mkExit v (ex_esr e) (ex_far e) (ex_hpfar e) (ex_gprs e) (ex_gicv3_hcr e) (ex_gicv3_lrs e)
         (ex_gicv3_misr e) (ex_gicv3_vmcr e) (ex_cntp_ctl e) (ex_cntp_cval e) (ex_cntv_ctl e)
         (ex_cntv_cval e) (ex_ripas_base e) (ex_ripas_top e) (ex_ripas_value e) (ex_imm e) (ex_pmu_ovf e).
Definition ex_set_esr (e : rec_exit) (v : N) : rec_exit :=
  mkExit (ex_reason e) v (ex_far e) (ex_hpfar e) (ex_gprs e) (ex_gicv3_hcr e) (ex_gicv3_lrs e)
         (ex_gicv3_misr e) (ex_gicv3_vmcr e) (ex_cntp_ctl e) (ex_cntp_cval e) (ex_cntv_ctl e)
         (ex_cntv_cval e) (ex_ripas_base e) (ex_ripas_top e) (ex_ripas_value e) (ex_imm e) (ex_pmu_ovf e).
Definition ex_set_far (e : rec_exit) (v : N) : rec_exit :=
  mkExit (ex_reason e) (ex_esr e) v (ex_hpfar e) (ex_gprs e) (ex_gicv3_hcr e) (ex_gicv3_lrs e)
         (ex_gicv3_misr e) (ex_gicv3_vmcr e) (ex_cntp_ctl e) (ex_cntp_cval e) (ex_cntv_ctl e)
         (ex_cntv_cval e) (ex_ripas_base e) (ex_ripas_top e) (ex_ripas_value e) (ex_imm e) (ex_pmu_ovf e).
Definition ex_set_hpfar (e : rec_exit) (v : N) : rec_exit :=
  mkExit (ex_reason e) (ex_esr e) (ex_far e) v (ex_gprs e) (ex_gicv3_hcr e) (ex_gicv3_lrs e)
         (ex_gicv3_misr e) (ex_gicv3_vmcr e) (ex_cntp_ctl e) (ex_cntp_cval e) (ex_cntv_ctl e)
         (ex_cntv_cval e) (ex_ripas_base e) (ex_ripas_top e) (ex_ripas_value e) (ex_imm e) (ex_pmu_ovf e).
Definition ex_set_gprs (e : rec_exit) (v : N -> N) : rec_exit :=
  mkExit (ex_reason e) (ex_esr e) (ex_far e) (ex_hpfar e) v (ex_gicv3_hcr e) (ex_gicv3_lrs e)
         (ex_gicv3_misr e) (ex_gicv3_vmcr e) (ex_cntp_ctl e) (ex_cntp_cval e) (ex_cntv_ctl e)
         (ex_cntv_cval e) (ex_ripas_base e) (ex_ripas_top e) (ex_ripas_value e) (ex_imm e) (ex_pmu_ovf e).
Definition ex_set_gic (e : rec_exit) (hcr : N) (lrs : N -> N) (misr vmcr : N) : rec_exit :=
  mkExit (ex_reason e) (ex_esr e) (ex_far e) (ex_hpfar e) (ex_gprs e) hcr lrs misr vmcr
         (ex_cntp_ctl e) (ex_cntp_cval e) (ex_cntv_ctl e)
         (ex_cntv_cval e) (ex_ripas_base e) (ex_ripas_top e) (ex_ripas_value e) (ex_imm e) (ex_pmu_ovf e).
Definition ex_set_timers (e : rec_exit) (pctl pcval vctl vcval : N) : rec_exit :=
  mkExit (ex_reason e) (ex_esr e) (ex_far e) (ex_hpfar e) (ex_gprs e) (ex_gicv3_hcr e) (ex_gicv3_lrs e)
         (ex_gicv3_misr e) (ex_gicv3_vmcr e) pctl pcval vctl vcval
         (ex_ripas_base e) (ex_ripas_top e) (ex_ripas_value e) (ex_imm e) (ex_pmu_ovf e).
Definition ex_set_ripas (e : rec_exit) (base top value : N) : rec_exit :=
  mkExit (ex_reason e) (ex_esr e) (ex_far e) (ex_hpfar e) (ex_gprs e) (ex_gicv3_hcr e) (ex_gicv3_lrs e)
         (ex_gicv3_misr e) (ex_gicv3_vmcr e) (ex_cntp_ctl e) (ex_cntp_cval e) (ex_cntv_ctl e)
         (ex_cntv_cval e) base top value (ex_imm e) (ex_pmu_ovf e).
Definition ex_set_imm (e : rec_exit) (v : N) : rec_exit :=
  mkExit (ex_reason e) (ex_esr e) (ex_far e) (ex_hpfar e) (ex_gprs e) (ex_gicv3_hcr e) (ex_gicv3_lrs e)
         (ex_gicv3_misr e) (ex_gicv3_vmcr e) (ex_cntp_ctl e) (ex_cntp_cval e) (ex_cntv_ctl e)
         (ex_cntv_cval e) (ex_ripas_base e) (ex_ripas_top e) (ex_ripas_value e) v (ex_pmu_ovf e).
Definition ex_set_pmu (e : rec_exit) (v : N) : rec_exit :=
  mkExit (ex_reason e) (ex_esr e) (ex_far e) (ex_hpfar e) (ex_gprs e) (ex_gicv3_hcr e) (ex_gicv3_lrs e)
         (ex_gicv3_misr e) (ex_gicv3_vmcr e) (ex_cntp_ctl e) (ex_cntp_cval e) (ex_cntv_ctl e)
         (ex_cntv_cval e) (ex_ripas_base e) (ex_ripas_top e) (ex_ripas_value e) (ex_imm e) v.

(** gic.c:44-58, struct gic_virt_feature_s (without nr_aprs) *)
Record gicf := mkGicf { gf_nr_lrs : N; gf_max_vintid : N; gf_pri_res0 : N; gf_ext_range : bool }.

(** gic.c:65-121; the argument is ICH_VTR_EL2 and the ExtRange bit of
    ICC_CTLR_EL1.  gic.h: LIST_REGS [4:0], ID_BITS [25:23], PRE_BITS [28:26],
    PRI_BITS [31:29].  [None] stands for the failing assertions. *)
Definition gic_get_virt_features (vtr : N) (ext : bool) : option gicf :=
  let nr_lrs := EXTRACT 5 0 vtr in
  let nr_pre_bits := EXTRACT 3 26 vtr + 1 in
  let nr_pri_bits := EXTRACT 3 29 vtr + 1 in
  if (nr_lrs <? 16) && (5 <=? nr_pre_bits) then
    Some (mkGicf nr_lrs (if EXTRACT 3 23 vtr =? 0 then 2 ^ 16 - 1 else 2 ^ 24 - 1)
                 (2 ^ (8 - nr_pri_bits) - 1) ext)
  else None.

(** gic.h:149-157 *)
Definition ICH_HCR_EL2_NS_MASK : N := bits_or [1; 2; 3; 4; 5; 6; 7; 14].
(** gic.h:92-94 *)
Definition ICH_HCR_EL2_EOI_COUNT_MASK : N := MASK 5 27.

(** The indices 0..nr_lrs of the list registers *)
Definition lr_indices (f : gicf) : list N := map N.of_nat (seq 0 (N.to_nat (gf_nr_lrs f) + 1)).

(** gic.c:132-145 *)
Definition gic_copy_state_from_rec_entry (f : gicf) (s : gic_state) (e : rec_enter) : gic_state :=
  mkGic (gic_ap0r s) (gic_ap1r s) (gic_vmcr s)
        (N.lor (N.ldiff (gic_hcr s) ICH_HCR_EL2_NS_MASK) (N.land (en_gicv3_hcr e) ICH_HCR_EL2_NS_MASK))
        (fun i => if i <=? gf_nr_lrs f then en_gicv3_lrs e i else gic_lr s i)
        (gic_misr s).

(** gic.c:147-161 *)
Definition gic_copy_state_to_rec_exit (f : gicf) (s : gic_state) (x : rec_exit) : rec_exit :=
  ex_set_gic x (N.land (gic_hcr s) (N.lor ICH_HCR_EL2_EOI_COUNT_MASK ICH_HCR_EL2_NS_MASK))
             (fun i => if i <=? gf_nr_lrs f then gic_lr s i else ex_gicv3_lrs x i)
             (gic_misr s) (gic_vmcr s).

(** gic.c:163-179 *)
Definition is_valid_vintid (f : gicf) (intid : N) : bool :=
  if (intid <=? 1019) || ((8192 <=? intid) && (intid <=? gf_max_vintid f)) then true
  else if gf_ext_range f then
    ((1056 <=? intid) && (intid <=? 1119)) || ((4096 <=? intid) && (intid <=? 5119))
  else false.

(** gic.h:97-144: fields of a list register *)
Definition ICH_LR_STATE_MASK : N := MASK 2 62.
Definition ICH_LR_HW_BIT : N := 2 ^ 61.
Definition ICH_LR_EOI_BIT : N := 2 ^ 41.
Definition lr_invalid (lr : N) : bool := N.land lr ICH_LR_STATE_MASK =? 0.
Definition lr_intid (lr : N) : N := EXTRACT 32 0 lr.

(** gic.c:199-209: the checks on one list register that is not invalid *)
Definition lr_bad (f : gicf) (lr : N) : bool :=
  negb (N.land lr ICH_LR_HW_BIT =? 0)
  || negb (N.land (EXTRACT 8 48 lr) (gf_pri_res0 f) =? 0)
  || negb (N.ldiff (N.land lr (MASK 13 32)) ICH_LR_EOI_BIT =? 0)
  || negb (is_valid_vintid f (lr_intid lr)).

(** gic.c:216-226: the inner loop over the following list registers *)
Fixpoint lr_dup (lrs : N -> N) (intid : N) (js : list N) : bool :=
  match js with
  | [] => false
  | j :: tl =>
    if lr_invalid (lrs j) then lr_dup lrs intid tl
    else if intid =? lr_intid (lrs j) then true
    else lr_dup lrs intid tl
  end.

(** gic.c:191-227: the loop over list registers *)
Fixpoint lrs_valid (f : gicf) (lrs : N -> N) (is : list N) : bool :=
  match is with
  | [] => true
  | i :: tl =>
    if lr_invalid (lrs i) then lrs_valid f lrs tl
    else if lr_bad f (lrs i) then false
    else if lr_dup lrs (lr_intid (lrs i)) tl then false
    else lrs_valid f lrs tl
  end.

(** gic.c:181-230 *)
Definition gic_validate_state (f : gicf) (e : rec_enter) : bool :=
  if negb (N.ldiff (en_gicv3_hcr e) ICH_HCR_EL2_NS_MASK =? 0) then false
  else lrs_valid f (en_gicv3_lrs e) (lr_indices f).
