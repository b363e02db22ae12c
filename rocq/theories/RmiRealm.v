(** Model of runtime/rmi/realm.c and lib/arch/src/vmid.c. *)
From Coq Require Import NArith ZArith List Bool.
From Verif Require Import Bits S2tte State Granule Measure RmiRtt.
Import ListNotations.
Local Open Scope N_scope.

(** Update of the life cycle state of a realm (realm.h:77-85) *)
Definition set_rd_state (r : rdesc) (st : N) : rdesc :=
  mkRd st (rd_rec_count r) (rd_meas r) (rd_ctx r) (rd_num_rec_aux r)
       (rd_algorithm r) (rd_pmu_enabled r) (rd_pmu_num_ctrs r) (rd_simd r) (rd_rpv r).
(** realm.h:107-115 *)
Definition set_rd_rec_count (r : rdesc) (n : N) : rdesc :=
  mkRd (rd_state r) n (rd_meas r) (rd_ctx r) (rd_num_rec_aux r)
       (rd_algorithm r) (rd_pmu_enabled r) (rd_pmu_num_ctrs r) (rd_simd r) (rd_rpv r).

(** realm.c:25-50 *)
Definition smc_realm_activate (c : cfg) (rd_addr : N) : prog N :=
  ok <- find_lock_granule c rd_addr RD ;;
  if negb ok then Ret RMI_ERROR_INPUT
  else
    map_slot SLOT_RD ;;;
    r <- get_rd rd_addr ;;
    ret <- (if rd_state r =? REALM_NEW then put_rd rd_addr (set_rd_state r REALM_ACTIVE) ;;; Ret RMI_SUCCESS
            else Ret RMI_ERROR_REALM) ;;
    unmap_slot SLOT_RD ;;;
    granule_unlock rd_addr ;;;
    Ret ret.

(** vmid.c:12-13 *)
Definition vmid_count (c : cfg) : N := if c_vmid16 c then 65536 else 256.
(** vmid.c:29-49; the bit of [vmid] in the array of words is [s_vmids vmid] *)
Definition vmid_reserve (c : cfg) (v : N) : prog bool :=
  if vmid_count c <=? v then Ret false else old <- vmid_set v ;; Ret (negb old).
(** vmid.c:54-69 *)
Definition vmid_free (c : cfg) (v : N) : prog unit := assert_ (v <? vmid_count c) ;;; vmid_clear v.

(** realm.c:52-68.  [params] is what the copy delivers, [None] if it faults. *)
Definition get_realm_params (c : cfg) (params : option rparams) (addr : N) : prog (option rparams) :=
  if negb (find_granule c addr) then Ret None
  else
    st <- rd_state_ addr ;;
    if negb (gstate_eqb st NS) then Ret None
    else map_slot SLOT_NS ;;; unmap_slot SLOT_NS ;;; Ret params.

(** smc-rmi.h:623-630: RMI_REALM_FLAGS *)
Definition is_lpa2_requested (p : rparams) : bool := EXTRACT 1 0 (p_flags p) =? 1.
Definition realm_flags_sve (p : rparams) : bool := EXTRACT 1 1 (p_flags p) =? 1.
Definition realm_flags_pmu (p : rparams) : bool := EXTRACT 1 2 (p_flags p) =? 1.

(** smc-rmi.h:153-175: fields of feature register 0 *)
Definition feat_s2sz (f : N) : N := EXTRACT 8 0 f.
Definition feat_lpa2 (f : N) : bool := EXTRACT 1 8 f =? 1.
Definition feat_sve_en (f : N) : bool := EXTRACT 1 9 f =? 1.
Definition feat_sve_vl (f : N) : N := EXTRACT 4 10 f.
Definition feat_num_bps (f : N) : N := EXTRACT 6 14 f.
Definition feat_num_wps (f : N) : N := EXTRACT 6 20 f.
Definition feat_pmu_num_ctrs (f : N) : N := EXTRACT 5 27 f.

(** realm.c:80-108 *)
Definition s2_inconsistent_sl (bits : N) (sl : Z) (lpa2 : bool) : bool :=
  let levels := (3 - sl)%Z in
  let min_bits := Z.to_N (levels * 9 + 12 + 1) in
  let max0 := if (sl =? -1)%Z && lpa2 then min_bits + (S2TTE_STRIDE_LM1 - 1) else min_bits + (S2TTE_STRIDE - 1) in
  let max_bits := if (0 <? sl)%Z || ((sl =? 0)%Z && lpa2) then max0 + 4 else max0 in
  (bits <? min_bits) || (max_bits <? bits).

(** realm.c:110-144; s2tt.h:41-47 *)
Definition validate_ipa_bits_and_sl (c : cfg) (bits : N) (sl : Z) (lpa2 : bool) : bool :=
  let max_ipa_bits := if lpa2 then 52 else 48 in
  if (bits <? 32) || (max_ipa_bits <? bits) then false
  else if (sl <? min_starting_level lpa2)%Z || (S2TT_PAGE_LEVEL <? sl)%Z then false
  else if (sl =? 0)%Z && (c_pa_width c <? 44) then false
  else negb (s2_inconsistent_sl bits sl lpa2).

(** realm.c:152-173 *)
Definition s2_num_root_rtts (bits : N) (sl : Z) : N :=
  let sl_ipa_bits := Z.to_N ((3 - sl) * 9 + 12 + 9) in
  if bits <=? sl_ipa_bits then 1 else 2 ^ (bits - sl_ipa_bits).

(** realm.c:234-324 up to the reservation of the VMID *)
Definition realm_params_valid (c : cfg) (p : rparams) : bool :=
  let f := c_feat0 c in
  negb (is_lpa2_requested p && negb (feat_lpa2 f)) &&
  negb ((p_s2sz p <? 32) || (feat_s2sz f <? p_s2sz p)) &&
  negb ((p_num_bps p =? 0) || (feat_num_bps f <? p_num_bps p) ||
        (p_num_wps p =? 0) || (feat_num_wps f <? p_num_wps p)) &&
  (negb (realm_flags_sve p) || (feat_sve_en f && (p_sve_vl p <=? feat_sve_vl f))) &&
  (negb (realm_flags_pmu p) ||
   ((p_pmu_num_ctrs p <=? feat_pmu_num_ctrs f) && (negb (p_pmu_num_ctrs p =? 0) || c_hpmn0 c))) &&
  validate_ipa_bits_and_sl c (p_s2sz p) (p_rtt_level_start p) (is_lpa2_requested p) &&
  (s2_num_root_rtts (p_s2sz p) (p_rtt_level_start p) =? p_rtt_num_start p) &&
  ((p_algorithm p =? 0) || (p_algorithm p =? 1)).

(** realm.c:234-324 *)
Definition validate_realm_params (c : cfg) (p : rparams) : prog bool :=
  if realm_params_valid c p then vmid_reserve c (p_vmid p) else Ret false.

(** realm.h:149-160; [container_end] is computed with wrap-around *)
Definition addr_is_contained (base end_ a : N) : bool :=
  let last := wrap64 (end_ + 2 ^ 64 - 1) in
  if last <? base then false else (base <=? a) && (a <=? last).

(** realm.c:207-222: the words of one table; yields the table, the address
    reached and whether it is the size of the address space *)
Fixpoint init_root_words (fuel : nat) (par size step : N) (t : table) (i cur : N) : table * N * bool :=
  match fuel with
  | O => (t, cur, false)
  | S f =>
      let t' := upd t i (if cur <? par then s2tte_create_unassigned_empty else s2tte_create_unassigned_ns) in
      let cur' := cur + step in
      if cur' =? size then (t', cur', true) else init_root_words f par size step t' (i + 1) cur'
  end.

(** realm.c:202-225.  The words of a table are written in one action. *)
Fixpoint init_roots (n : nat) (per : nat) (par size step : N) (g cur : N) : prog unit :=
  match n with
  | O => Panic
  | S m =>
      map_slot SLOT_RTT ;;;
      t <- get_table g ;;
      let o := init_root_words per par size step t 0 cur in
      wr_mem g (CW (fst (fst o))) ;;;
      unmap_slot SLOT_RTT ;;;
      if snd o then Ret tt else init_roots m per par size step (g + GRANULE_SIZE) (snd (fst o))
  end.

(** realm.c:184-232 *)
Definition init_s2_starting_level (r : rdesc) : prog unit :=
  let x := rd_ctx r in
  let per := if (s2_sl x =? S2TT_MIN_STARTING_LEVEL_LPA2)%Z then S2TTES_PER_S2TT_LM1 else S2TTES_PER_S2TT in
  init_roots (N.to_nat (num_root_rtts x)) (N.to_nat per) (realm_par_size r) (realm_ipa_size r)
             (s2tte_map_size (s2_sl x)) (g_rtt x) 0.

(** The granules of the starting level tables, in order *)
Definition root_list (base n : N) : list N :=
  map (fun i => base + N.of_nat i * GRANULE_SIZE) (seq 0 (N.to_nat n)).

(** realm.c:326-336 *)
Fixpoint free_sl_rtts (l : list N) : prog unit :=
  match l with
  | [] => Ret tt
  | g :: l' =>
      granule_lock g RTT ;;;
      buffer_granule_memzero g SLOT_RTT ;;;
      granule_unlock_transition g DELEGATED ;;;
      free_sl_rtts l'
  end.

(** realm.c:354-366; yields the tables locked so far, last one first *)
Fixpoint lock_roots (c : cfg) (l : list N) (locked : list N) : prog (bool * list N) :=
  match l with
  | [] => Ret (true, locked)
  | g :: l' =>
      ok <- find_lock_granule c g DELEGATED ;;
      if ok then lock_roots c l' (g :: locked) else Ret (false, locked)
  end.
(** realm.c:338-391 *)
Definition find_lock_rd_granules (c : cfg) (rd_addr rtt_base num_rtts : N) : prog bool :=
  let first := rd_addr <? rtt_base in
  ok1 <- (if first then find_lock_granule c rd_addr DELEGATED else Ret true) ;;
  if negb ok1 then Ret false
  else
    o <- lock_roots c (root_list rtt_base num_rtts) [] ;;
    ok2 <- (if fst o then (if first then Ret true else find_lock_granule c rd_addr DELEGATED) else Ret false) ;;
    if ok2 then Ret true
    else
      unlock_all (snd o) ;;;
      (if first then granule_unlock rd_addr else Ret tt) ;;;
      Ret false.

(** realm.c:470-474 *)
Fixpoint transition_all (l : list N) (st : gstate) : prog unit :=
  match l with
  | [] => Ret tt
  | g :: l' => granule_unlock_transition g st ;;; transition_all l' st
  end.

(** realm.c:434-459 *)
Definition new_rd (r0 : rdesc) (p : rparams) : rdesc :=
  mkRd REALM_NEW 0 (rd_meas r0)
       (mkCtx (p_s2sz p) (p_rtt_level_start p) (p_rtt_num_start p) (p_rtt_base p) (p_vmid p) (is_lpa2_requested p))
       MAX_REC_AUX_GRANULES (p_algorithm p) (realm_flags_pmu p) (p_pmu_num_ctrs p)
       (mkSimd (realm_flags_sve p) (if realm_flags_sve p then p_sve_vl p else sve_vq (rd_simd r0)))
       (p_rpv p).

(** realm.c:393-477 *)
Definition smc_realm_create (c : cfg) (params : option rparams) (rd_addr params_addr : N) : prog N :=
  op <- get_realm_params c params params_addr ;;
  match op with
  | None => Ret RMI_ERROR_INPUT
  | Some p =>
      ok <- validate_realm_params c p ;;
      if negb ok then Ret RMI_ERROR_INPUT
      else if addr_is_contained (p_rtt_base p) (wrap64 (p_rtt_base p + p_rtt_num_start p * GRANULE_SIZE)) rd_addr then
        vmid_free c (p_vmid p) ;;; Ret RMI_ERROR_INPUT
      else
        ok <- find_lock_rd_granules c rd_addr (p_rtt_base p) (p_rtt_num_start p) ;;
        if negb ok then vmid_free c (p_vmid p) ;;; Ret RMI_ERROR_INPUT
        else
          map_slot SLOT_RD ;;;
          r0 <- get_rd rd_addr ;;
          let r := new_rd r0 p in
          put_rd rd_addr r ;;;
          init_s2_starting_level r ;;;
          put_rd rd_addr
            (set_meas r RIM_MEASUREMENT_SLOT (measurement_realm_params_measure c (rd_algorithm r) p)) ;;;
          unmap_slot SLOT_RD ;;;
          granule_unlock_transition rd_addr RD ;;;
          transition_all (root_list (p_rtt_base p) (p_rtt_num_start p)) RTT ;;;
          Ret RMI_SUCCESS
  end.

(** realm.c:479-498 *)
Fixpoint total_root_rtt_refcount (l : list N) (acc : N) : prog N :=
  match l with
  | [] => Ret acc
  | g :: l' =>
      granule_lock g RTT ;;;
      n <- rd_ref g ;;
      granule_unlock g ;;;
      total_root_rtt_refcount l' (acc + n)
  end.

(** realm.c:500-549 *)
Definition smc_realm_destroy (c : cfg) (rd_addr : N) : prog N :=
  f <- find_lock_unused_granule c rd_addr RD ;;
  match f with
  | FInval => Ret RMI_ERROR_INPUT
  | FBusy => Ret RMI_ERROR_REALM
  | FOk =>
      map_slot SLOT_RD ;;;
      r <- get_rd rd_addr ;;
      let roots := root_list (g_rtt (rd_ctx r)) (num_root_rtts (rd_ctx r)) in
      n <- total_root_rtt_refcount roots 0 ;;
      if negb (n =? 0) then
        unmap_slot SLOT_RD ;;; granule_unlock rd_addr ;;; Ret RMI_ERROR_REALM
      else
        vmid_free c (vmid (rd_ctx r)) ;;;
        unmap_slot SLOT_RD ;;;
        free_sl_rtts roots ;;;
        buffer_granule_memzero rd_addr SLOT_RD ;;;
        granule_unlock_transition rd_addr DELEGATED ;;;
        Ret RMI_SUCCESS
  end.
