(** Model of runtime/rmi/rec.c. *)
From Coq Require Import NArith ZArith List Bool.
From Verif Require Import Bits S2tte State Granule RecFields Measure RmiRtt RmiRealm Psci.
Import ListNotations.
Local Open Scope N_scope.

(** Union of single bits *)
Definition bits_or (l : list N) : N := fold_right (fun b acc => N.lor (2 ^ b) acc) 0 l.

(** arch.h:727-735 *)
Definition PMCR_EL0_INIT : N := bits_or [6; 5].
Definition PMCR_EL0_INIT_RESET : N := bits_or [6; 5; 2; 1].
(** arch.h:743, 981, 1076-1086, 832-864 *)
Definition MDSCR_EL1_TDCC_BIT : N := bits_or [12].
Definition VMPIDR_EL2_RES1 : N := bits_or [31].
Definition CNTHCTL_EL2_NO_TRAPS : N := bits_or [10; 11].
Definition CPTR_EL2_VHE_INIT : N := bits_or [28; 30].
(** arch.h:152-187 *)
Definition HCR_REALM_FLAGS : N := bits_or [46; 34; 31; 19; 5; 10; 4; 3; 2; 1; 0; 18; 37; 41; 40].

(** rec.h:324-330 *)
Definition RMI_MPIDR_MASK : N :=
  N.lor (N.lor (MASK 4 0) (MASK 8 8)) (N.lor (MASK 8 16) (MASK 8 24)).
Definition rec_mpidr_is_valid (m : N) : bool := N.ldiff m RMI_MPIDR_MASK =? 0.
(** rec.h:336-342 *)
Definition rec_mpidr_to_idx (m : N) : N :=
  N.lor (N.lor (N.land m (MASK 4 0)) (N.shiftr (N.land m (MASK 8 8)) 4))
        (N.lor (N.shiftr (N.land m (MASK 8 16)) 4) (N.shiftr (N.land m (MASK 8 24)) 4)).
(** rec.h:358-366 *)
Definition rec_mpidr_to_mpidr (m : N) : N :=
  N.lor (N.land m (N.lor (N.lor (MASK 4 0) (MASK 8 8)) (MASK 8 16)))
        (N.shiftl (N.land m (MASK 8 24)) 8).

(** rec.c:24-35.  [pmu_enabled] is the member of the REC, which rec_create sets later. *)
Definition init_rec_sysregs (r : recd) (mpidr : N) : recd :=
  let r1 := set_sysreg r PMCR_EL0 (if r_pmu_enabled r then PMCR_EL0_INIT_RESET else PMCR_EL0_INIT) in
  let r2 := set_sysreg r1 SCTLR_EL1 SCTLR_EL1_FLAGS in
  let r3 := set_sysreg r2 MDSCR_EL1 MDSCR_EL1_TDCC_BIT in
  let r4 := set_sysreg r3 VMPIDR_EL2 (N.lor (rec_mpidr_to_mpidr mpidr) VMPIDR_EL2_RES1) in
  let r5 := set_sysreg r4 CNTHCTL_EL2 CNTHCTL_EL2_NO_TRAPS in
  set_sysreg r5 CPTR_EL2 CPTR_EL2_VHE_INIT.

(** rec.c:41-47 *)
Definition sl0_val (sl : Z) : N :=
  INPLACE 2 6 (match sl with (-1)%Z => 0 | 0%Z => 2 | 1%Z => 1 | 2%Z => 0 | _ => 3 end).

(** rec.c:49-68 *)
Definition realm_vtcr_ps (parange : N) : N :=
  INPLACE 3 16
    (if parange =? 36 then 1 else if parange =? 40 then 2 else if parange =? 42 then 3
     else if parange =? 44 then 4 else if parange =? 48 then 5 else if parange =? 52 then 6 else 0).

(** arch.h:662-721 *)
Definition VTCR_FLAGS : N := fold_right N.lor 0 [INPLACE 2 8 1; INPLACE 2 10 1; INPLACE 2 12 3; 2 ^ 30; 2 ^ 31].

(** rec.c:70-104 *)
Definition realm_vtcr (c : cfg) (x : s2ctx) : N :=
  let v0 := if c_vmid16 c then N.lor VTCR_FLAGS (2 ^ 19) else VTCR_FLAGS in
  let v1 := N.lor (N.lor (N.lor v0 (N.land (64 - ipa_bits x) (MASK 6 0))) (sl0_val (s2_sl x)))
                  (realm_vtcr_ps (c_pa_width c)) in
  if enable_lpa2 x then
    N.lor (if (s2_sl x =? -1)%Z then N.lor v1 (INPLACE 1 33 1) else v1) (INPLACE 1 32 1)
  else v1.

(** rec.c:114-124 *)
Definition realm_vttbr (x : s2ctx) : N :=
  let b0 := N.land (g_rtt x) (MASK 47 1) in
  let b1 := if enable_lpa2 x then N.lor (N.ldiff b0 (MASK 4 2)) (INPLACE 4 2 (EXTRACT 4 48 (g_rtt x))) else b0 in
  N.lor b1 (INPLACE 16 48 (vmid x)).

(** rec.c:126-140; bits 6 and 5 are TPM and TPMCR, HPMN is [4:0] *)
Definition realm_mdcr (mdcr : N) (pmu_enabled : bool) (num_ctrs : N) : N :=
  if pmu_enabled then N.lor (N.ldiff (N.ldiff mdcr (bits_or [6; 5])) (MASK 5 0)) (INPLACE 5 0 num_ctrs)
  else N.lor mdcr (bits_or [6; 5]).

(** rec.c:79-81 *)
Definition vtcr_sl_ok (x : s2ctx) : bool :=
  (min_starting_level (enable_lpa2 x) <=? s2_sl x)%Z && (s2_sl x <=? S2TT_PAGE_LEVEL)%Z.

(** rec.c:156-158 *)
Definition init_gprs (regs gprs : N -> N) : N -> N := fun i => if i <? 8 then gprs i else regs i.

(** gic.c:123-130 *)
Definition ICH_HCR_EL2_INIT : N := bits_or [0; 8; 15].
Definition gic_cpu_state_init : gic_state := mkGic (fun _ => 0) (fun _ => 0) 0 ICH_HCR_EL2_INIT (fun _ => 0) 0.

(** rec.c:106-170 and 343-362: the REC built from its zeroed granule [r0].
    The members of [r0] that no line writes keep their value. *)
Definition new_rec (c : cfg) (r0 : recd) (rd : rdesc) (rd_addr : N) (p : rec_params) (idx : N) (aux : list N) : recd :=
  let r1 := init_rec_sysregs r0 (rp_mpidr p) in
  let x := rd_ctx rd in
  mkRec idx (negb (N.land (rp_flags p) 1 =? 0)) (init_gprs (r_regs r0) (rp_gprs p)) (r_sp_el0 r0) (rp_pc p)
        SPSR_EL2_INIT (r_sys r1) gic_cpu_state_init (realm_vttbr x) (realm_vtcr c x) HCR_REALM_FLAGS
        (realm_mdcr (c_mdcr_el2 c) (rd_pmu_enabled rd) (rd_pmu_num_ctrs rd))
        (r_set_ripas r0) rd_addr (rd_pmu_enabled rd) (rd_pmu_num_ctrs rd) (rd_algorithm rd) (rd_simd rd) x
        (r_last_esr r0) (r_last_hpfar r0) (r_last_far r0) (r_psci_pending r0) aux
        (r_serror_vsesr r0) (r_serror_inject r0) (r_host_call r0).

(** rec.c:178-191; [i] numbers the slots *)
Fixpoint free_rec_aux_granules (l : list N) (i : N) (scrub : bool) : prog unit :=
  match l with
  | [] => Ret tt
  | g :: l' =>
      granule_lock g REC_AUX ;;;
      (if scrub then buffer_granule_memzero g (SLOT_REC_AUX0 + i) else Ret tt) ;;;
      granule_unlock_transition g DELEGATED ;;;
      free_rec_aux_granules l' (i + 1) scrub
  end.

(** lib/slot_buf/src/buffer.c:199-250: the aux granules use consecutive slots *)
Fixpoint map_aux (l : list N) (i : N) : prog unit :=
  match l with [] => Ret tt | _ :: l' => map_slot (SLOT_REC_AUX0 + i) ;;; map_aux l' (i + 1) end.
Fixpoint unmap_aux (l : list N) (i : N) : prog unit :=
  match l with [] => Ret tt | _ :: l' => unmap_slot (SLOT_REC_AUX0 + i) ;;; unmap_aux l' (i + 1) end.

(** rec.h:31-62, RMM_CCA_TOKEN_BUFFER has its default value 1 *)
Definition REC_NUM_PAGES : N := 2 + 1 + 3 + 1 + 1.

(** rec.c:207-245.  The initial SIMD context written to the aux granules is not
    modelled: their contents are arbitrary from here on (OAux in Machine.v). *)
Definition rec_aux_granules_init (aux : list N) : prog unit :=
  map_aux aux 0 ;;; assert_ (REC_NUM_PAGES <=? N.of_nat (length aux)) ;;; unmap_aux aux 0.

(** rec.c:284-298: [done] holds the granules already changed, in order *)
Fixpoint acquire_aux (c : cfg) (l done : list N) : prog bool :=
  match l with
  | [] => Ret true
  | a :: l' =>
      ok <- find_lock_granule c a DELEGATED ;;
      if negb ok then
        unlock_all done ;;;
        free_rec_aux_granules done 0 false ;;;
        Ret false
      else
        granule_unlock_transition a REC_AUX ;;;
        acquire_aux c l' (done ++ [a])
  end.

(** The first [n] addresses of the parameter array *)
Definition aux_list (p : rec_params) (n : N) : list N := map (fun i => rp_aux p (N.of_nat i)) (seq 0 (N.to_nat n)).

(** rec.c:310-392, with both granules locked: result and new state of the REC granule *)
Definition rec_create_locked (c : cfg) (rd_addr rec_addr : N) (p : rec_params) (aux : list N) : prog (N * gstate) :=
  n <- rd_ref rd_addr ;;
  if n =? REFCOUNT_MAX then Ret (RMI_ERROR_REALM, DELEGATED)
  else
    map_slot SLOT_REC ;;;
    map_slot SLOT_RD ;;;
    r0 <- get_rec rec_addr ;;
    rd <- get_rd rd_addr ;;
    let idx := rd_rec_count rd in
    out <-
      (if negb (rd_state rd =? REALM_NEW) then Ret (RMI_ERROR_REALM, DELEGATED)
       else if negb (rec_mpidr_is_valid (rp_mpidr p)) || negb (idx =? rec_mpidr_to_idx (rp_mpidr p)) then
         Ret (RMI_ERROR_INPUT, DELEGATED)
       else if negb (N.of_nat (length aux) =? rd_num_rec_aux rd) then Ret (RMI_ERROR_INPUT, DELEGATED)
       else
         assert_ (vtcr_sl_ok (rd_ctx rd)) ;;;
         let r := new_rec c r0 rd rd_addr p idx aux in
         put_rec rec_addr r ;;;
         let rd1 :=
           if r_runnable r then
             set_meas rd RIM_MEASUREMENT_SLOT
               (measurement_rec_params_measure c (rd_meas rd RIM_MEASUREMENT_SLOT) (rd_algorithm rd) p)
           else rd in
         atomic_granule_get rd_addr ;;;
         rec_aux_granules_init aux ;;;
         put_rd rd_addr (set_rd_rec_count rd1 (idx + 1)) ;;;
         Ret (RMI_SUCCESS, REC)) ;;
    unmap_slot SLOT_RD ;;;
    unmap_slot SLOT_REC ;;;
    Ret out.

(** rec.c:247-399.  [params] is what the copy delivers, [None] if it faults.
    The number of aux granules is truncated to 32 bits. *)
Definition smc_rec_create (c : cfg) (params : option rec_params) (rd_addr rec_addr params_addr : N) : prog N :=
  if negb (find_granule c params_addr) then Ret RMI_ERROR_INPUT
  else
    st <- rd_state_ params_addr ;;
    if negb (gstate_eqb st NS) then Ret RMI_ERROR_INPUT
    else
      map_slot SLOT_NS ;;; unmap_slot SLOT_NS ;;;
      match params with
      | None => Ret RMI_ERROR_INPUT
      | Some p =>
          let num := rp_num_aux p mod 2 ^ 32 in
          if MAX_REC_AUX_GRANULES <? num then Ret RMI_ERROR_INPUT
          else
            let aux := aux_list p num in
            ok <- acquire_aux c aux [] ;;
            if negb ok then Ret RMI_ERROR_INPUT
            else
              ok <- find_lock_two_granules c rec_addr DELEGATED rd_addr RD ;;
              ret <-
                (if negb ok then Ret RMI_ERROR_INPUT
                 else
                   out <- rec_create_locked c rd_addr rec_addr p aux ;;
                   granule_unlock rd_addr ;;;
                   granule_unlock_transition rec_addr (snd out) ;;;
                   Ret (fst out)) ;;
              (if negb (ret =? RMI_SUCCESS) then free_rec_aux_granules aux 0 false else Ret tt) ;;;
              Ret ret
      end.

(** rec.c:401-444 *)
Definition smc_rec_destroy (c : cfg) (rec_addr : N) : prog N :=
  f <- find_lock_unused_granule c rec_addr REC ;;
  match f with
  | FInval => Ret RMI_ERROR_INPUT
  | FBusy => Ret RMI_ERROR_REC
  | FOk =>
      map_slot SLOT_REC ;;;
      r <- get_rec rec_addr ;;
      free_rec_aux_granules (r_aux r) 0 true ;;;
      granule_memzero_mapped rec_addr ;;;
      unmap_slot SLOT_REC ;;;
      granule_unlock_transition rec_addr DELEGATED ;;;
      atomic_granule_put_release (r_g_rd r) ;;;
      Ret RMI_SUCCESS
  end.

(** rec.c:446-467 *)
Definition smc_rec_aux_count (c : cfg) (rd_addr : N) : prog res :=
  ok <- find_lock_granule c rd_addr RD ;;
  if negb ok then Ret (res0 RMI_ERROR_INPUT)
  else
    map_slot SLOT_RD ;;;
    r <- get_rd rd_addr ;;
    unmap_slot SLOT_RD ;;;
    granule_unlock rd_addr ;;;
    Ret (mkRes RMI_SUCCESS (rd_num_rec_aux r) 0 0 0).

(** rec.c:469-524; g_rec of the target is the target granule *)
Definition smc_psci_complete (c : cfg) (calling_addr target_addr status : N) : prog N :=
  if negb (is_aligned_granule calling_addr) then Ret RMI_ERROR_INPUT
  else if negb (is_aligned_granule target_addr) then Ret RMI_ERROR_INPUT
  else
    ok <- find_lock_two_granules c calling_addr REC target_addr REC ;;
    if negb ok then Ret RMI_ERROR_INPUT
    else
      n <- granule_refcount_read_acquire calling_addr ;;
      ret <-
        (if negb (n =? 0) then Ret RMI_ERROR_INPUT
         else
           map_slot SLOT_REC ;;;
           map_slot SLOT_REC2 ;;;
           calling <- get_rec calling_addr ;;
           target <- get_rec target_addr ;;
           m <- granule_refcount_read_acquire target_addr ;;
           ret <-
             (match psci_complete_request calling target (negb (m =? 0)) status with
              | None => Panic
              | Some (ret, calling', target') =>
                  put_rec target_addr target' ;;;
                  put_rec calling_addr calling' ;;;
                  Ret ret
              end) ;;
           unmap_slot SLOT_REC2 ;;;
           unmap_slot SLOT_REC ;;;
           Ret ret) ;;
      granule_unlock calling_addr ;;;
      granule_unlock target_addr ;;;
      Ret ret.
