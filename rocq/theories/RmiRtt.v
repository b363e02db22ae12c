(** Model of runtime/rmi/rtt.c: the commands on translation tables, data
    granules and RIPAS. *)
From Coq Require Import NArith ZArith List Bool.
From Verif Require Import Bits S2tte State Granule RecFields Measure.
Import ListNotations.
Local Open Scope N_scope.

(** smc-rmi.h:142-144 *)
Definition RMI_UNASSIGNED : N := 0.
Definition RMI_ASSIGNED : N := 1.
Definition RMI_TABLE : N := 2.
(** enum ripas, lib/s2tt/include/ripas.h *)
Definition RIPAS_EMPTY : N := 0.
Definition RIPAS_RAM : N := 1.
Definition RIPAS_DESTROYED : N := 2.
(** smc-rsi.h, enum ripas_change_destroyed *)
Definition NO_CHANGE_DESTROYED : N := 0.
Definition CHANGE_DESTROYED : N := 1.
(** s2tt.h: S2TT_MAX_PA_BITS *)
Definition S2TT_MAX_PA_BITS : N := 48.

(** rtt.c:25-31.  The range is checked first: the assertions of
    s2tte_is_addr_lvl_aligned only run when it holds. *)
Definition validate_map_addr (map_addr : N) (level : Z) (r : rdesc) : prog bool :=
  if map_addr <? realm_ipa_size r then addr_lvl_aligned_ (rd_ctx r) map_addr level else Ret false.

(** rtt.c:37-47 *)
Definition validate_rtt_structure_cmds (map_addr : N) (level : Z) (r : rdesc) : prog bool :=
  let min_level := (s2_sl (rd_ctx r) + 1)%Z in
  if (level <? min_level)%Z || (S2TT_PAGE_LEVEL <? level)%Z then Ret false
  else validate_map_addr map_addr (level - 1) r.

(** rtt.c:53-61 *)
Definition validate_rtt_map_cmds (map_addr : N) (level : Z) (r : rdesc) : prog bool :=
  if (level <? S2TT_MIN_BLOCK_LEVEL)%Z || (S2TT_PAGE_LEVEL <? level)%Z then Ret false
  else validate_map_addr map_addr level r.

(** rtt.c:67-76 *)
Definition validate_rtt_entry_cmds (map_addr : N) (level : Z) (r : rdesc) : prog bool :=
  if (level <? s2_sl (rd_ctx r))%Z || (S2TT_PAGE_LEVEL <? level)%Z then Ret false
  else validate_map_addr map_addr level r.

(** s2tt.c:154-186 (s2tt_invalidate_xxx): one page is invalidated for a page
    or a block, every page of a level 2 block for pages_in_block *)
Definition s2tt_invalidate_page (x : s2ctx) (ipa : N) : prog unit := tlbi (vmid x) ipa GRANULE_SIZE.
Definition s2tt_invalidate_block (x : s2ctx) (ipa : N) : prog unit := tlbi (vmid x) ipa GRANULE_SIZE.
Definition s2tt_invalidate_pages_in_block (x : s2ctx) (ipa : N) : prog unit :=
  tlbi (vmid x) ipa (s2tte_map_size 2).

Definition block_level_b (level : Z) : bool :=
  (S2TT_MIN_BLOCK_LEVEL <=? level)%Z && (level <=? S2TT_PAGE_LEVEL)%Z.

(** s2tt.c:426-502 with the assertions *)
Definition create_assigned_ok (x : s2ctx) (pa : N) (level : Z) : bool :=
  block_level_b level && s2tte_is_addr_lvl_aligned (enable_lpa2 x) pa level.

(** s2tt.c:512-536 with the assertions *)
Definition s2tte_create_assigned_ns_ (x : s2ctx) (w : N) (level : Z) : prog N :=
  assert_ (block_level_b level) ;;; Ret (s2tte_create_assigned_ns (enable_lpa2 x) w level).

(** s2tt.c:919-985 with the assertions of the function and of each entry *)
Definition s2tt_init_assigned_ (x : s2ctx) (create : bool -> N -> Z -> N) (g_tbl pa : N) (level : Z) : prog unit :=
  assert_ (block_level_b level && s2tte_is_addr_lvl_aligned (enable_lpa2 x) pa level) ;;;
  assert_ (forallb (fun i => create_assigned_ok x (pa + i * s2tte_map_size level) level) idx512) ;;;
  wr_mem g_tbl (CW (s2tt_init_assigned create (enable_lpa2 x) pa level)).

(** s2tt.c:994-1015 with the assertions *)
Definition s2tt_init_assigned_ns_ (x : s2ctx) (g_tbl attrs pa : N) (level : Z) : prog unit :=
  assert_ (block_level_b level && s2tte_is_addr_lvl_aligned (enable_lpa2 x) pa level) ;;;
  wr_mem g_tbl (CW (s2tt_init_assigned_ns (enable_lpa2 x) attrs pa level)).

(** s2tt.c:1143-1205 with the assertions.  The assertion that an accepted entry
    has an address is checked for all entries at once. *)
Definition table_maps_block_ (x : s2ctx) (t : table) (level : Z) (is_x : N -> Z -> bool) (ns : bool) : prog bool :=
  let lo := min_starting_level (enable_lpa2 x) in
  assert_ ((lo <=? level)%Z && (level <=? S2TT_PAGE_LEVEL)%Z) ;;;
  assert_ (forallb (fun i => negb (is_x (t i) level) || s2tte_has_pa (t i) level) idx512) ;;;
  if is_x (t 0) level then
    assert_ (lo <=? level - 1)%Z ;;;
    Ret (table_maps_block (enable_lpa2 x) t level is_x ns)
  else Ret false.

(** s2tt.c:1274-1320 with the assertions *)
Definition s2tt_skip_non_live_entries_ (x : s2ctx) (addr : N) (t : table) (wi : walk) : prog N :=
  assert_ ((w_index wi <=? S2TTES_PER_S2TT) && (w_level wi <=? S2TT_PAGE_LEVEL)%Z &&
           (min_starting_level (enable_lpa2 x) <=? w_level wi)%Z) ;;;
  Ret (wrap64 (s2tt_skip_non_live_entries addr t (w_level wi) (w_index wi))).

(** rtt.c:78-286 *)
Definition smc_rtt_create (c : cfg) (rd_addr rtt_addr map_addr ulevel : N) : prog N :=
  let level := sgn64 ulevel in
  ok <- find_lock_two_granules c rtt_addr DELEGATED rd_addr RD ;;
  if negb ok then Ret RMI_ERROR_INPUT
  else
    map_slot SLOT_RD ;;;
    r <- get_rd rd_addr ;;
    v <- validate_rtt_structure_cmds map_addr level r ;;
    if negb v then
      unmap_slot SLOT_RD ;;; granule_unlock rd_addr ;;; granule_unlock rtt_addr ;;; Ret RMI_ERROR_INPUT
    else
      let x := rd_ctx r in
      unmap_slot SLOT_RD ;;;
      if negb (enable_lpa2 x) && (2 ^ S2TT_MAX_PA_BITS <=? rtt_addr) then
        granule_unlock rd_addr ;;; granule_unlock rtt_addr ;;; Ret RMI_ERROR_INPUT
      else
        granule_lock (g_rtt x) RTT ;;;
        granule_unlock rd_addr ;;;
        wi <- s2tt_walk_lock_unlock c x map_addr (level - 1) ;;
        let llt := w_llt wi in
        ret <-
          (if negb (w_level wi =? level - 1)%Z then Ret (pack_return_code RMI_ERROR_RTT (w_level wi))
           else
             map_slot SLOT_RTT ;;;
             pw <- rd_word llt (w_index wi) ;;
             map_slot SLOT_DELEGATED ;;;
             ret <-
               (let finish :=
                  granule_set_state rtt_addr RTT ;;;
                  assert_ ((level - 1 <? S2TT_PAGE_LEVEL)%Z &&
                           (min_starting_level (enable_lpa2 x) <=? level - 1)%Z &&
                           is_aligned_granule rtt_addr) ;;;
                  wr_word llt (w_index wi) (s2tte_create_table (enable_lpa2 x) rtt_addr) ;;;
                  Ret RMI_SUCCESS in
                if s2tte_is_unassigned_empty pw then
                  wr_mem rtt_addr (CW (s2tt_init_const s2tte_create_unassigned_empty)) ;;;
                  atomic_granule_get llt ;;; finish
                else if s2tte_is_unassigned_ram pw then
                  wr_mem rtt_addr (CW (s2tt_init_const s2tte_create_unassigned_ram)) ;;;
                  atomic_granule_get llt ;;; finish
                else if s2tte_is_unassigned_ns pw then
                  wr_mem rtt_addr (CW (s2tt_init_const s2tte_create_unassigned_ns)) ;;;
                  atomic_granule_get llt ;;; finish
                else if s2tte_is_unassigned_destroyed pw then
                  wr_mem rtt_addr (CW (s2tt_init_const s2tte_create_unassigned_destroyed)) ;;;
                  atomic_granule_get llt ;;; finish
                else if s2tte_is_assigned_destroyed pw (level - 1) then
                  assert_ (S2TT_MIN_BLOCK_LEVEL <? level)%Z ;;;
                  block_pa <- s2tte_pa_ x pw (level - 1) ;;
                  s2tt_init_assigned_ x s2tte_create_assigned_destroyed rtt_addr block_pa level ;;;
                  granule_refcount_inc rtt_addr S2TTES_PER_S2TT ;;; finish
                else if s2tte_is_assigned_empty pw (level - 1) then
                  assert_ (S2TT_MIN_BLOCK_LEVEL <? level)%Z ;;;
                  block_pa <- s2tte_pa_ x pw (level - 1) ;;
                  s2tt_init_assigned_ x s2tte_create_assigned_empty rtt_addr block_pa level ;;;
                  granule_refcount_inc rtt_addr S2TTES_PER_S2TT ;;; finish
                else if s2tte_is_assigned_ram pw (level - 1) then
                  assert_ (S2TT_MIN_BLOCK_LEVEL <? level)%Z ;;;
                  wr_word llt (w_index wi) 0 ;;;
                  s2tt_invalidate_block x map_addr ;;;
                  block_pa <- s2tte_pa_ x pw (level - 1) ;;
                  s2tt_init_assigned_ x s2tte_create_assigned_ram rtt_addr block_pa level ;;;
                  granule_refcount_inc rtt_addr S2TTES_PER_S2TT ;;; finish
                else if s2tte_is_assigned_ns pw (level - 1) then
                  assert_ (S2TT_MIN_BLOCK_LEVEL <? level)%Z ;;;
                  wr_word llt (w_index wi) 0 ;;;
                  s2tt_invalidate_block x map_addr ;;;
                  block_pa <- s2tte_pa_ x pw (level - 1) ;;
                  s2tt_init_assigned_ns_ x rtt_addr pw block_pa level ;;;
                  atomic_granule_get llt ;;; finish
                else if s2tte_is_table pw (level - 1) then
                  Ret (pack_return_code RMI_ERROR_RTT (level - 1))
                else Panic) ;;
             unmap_slot SLOT_DELEGATED ;;;
             unmap_slot SLOT_RTT ;;;
             Ret ret) ;;
        granule_unlock llt ;;;
        granule_unlock rtt_addr ;;;
        Ret ret.

(** rtt.c:357-451: the descriptor that replaces the table, or the error; the
    reference counts are updated *)
Definition fold_parent_s2tte (x : s2ctx) (llt g_tbl : N) (t : table) (level last_level : Z) : prog (N + N) :=
  let err l : prog (N + N) := Ret (inr (pack_return_code RMI_ERROR_RTT l)) in
  ref <- rd_ref g_tbl ;;
  if ref =? 0 then
    let put w : prog (N + N) := atomic_granule_put llt ;;; Ret (inl w) in
    if table_is_uniform_block t s2tte_is_unassigned_destroyed then put s2tte_create_unassigned_destroyed
    else if table_is_uniform_block t s2tte_is_unassigned_empty then put s2tte_create_unassigned_empty
    else if table_is_uniform_block t s2tte_is_unassigned_ram then put s2tte_create_unassigned_ram
    else if table_is_uniform_block t s2tte_is_unassigned_ns then put s2tte_create_unassigned_ns
    else
      b <- table_maps_block_ x t level s2tte_is_assigned_ns true ;;
      if b then
        if (level <=? S2TT_MIN_BLOCK_LEVEL)%Z then err last_level
        else w <- s2tte_create_assigned_ns_ x (t 0) (level - 1) ;; put w
      else err level
  else if ref =? S2TTES_PER_S2TT then
    if (level <=? S2TT_MIN_BLOCK_LEVEL)%Z then err last_level
    else
      block_pa <- s2tte_pa_ x (t 0) level ;;
      let dec (create : bool -> N -> Z -> N) : prog (N + N) :=
        assert_ (create_assigned_ok x block_pa (level - 1)) ;;;
        granule_refcount_dec g_tbl S2TTES_PER_S2TT ;;;
        Ret (inl (create (enable_lpa2 x) block_pa (level - 1)%Z)) in
      b1 <- table_maps_block_ x t level s2tte_is_assigned_empty false ;;
      if b1 then dec s2tte_create_assigned_empty
      else
        b2 <- table_maps_block_ x t level s2tte_is_assigned_ram false ;;
        if b2 then dec s2tte_create_assigned_ram
        else
          b3 <- table_maps_block_ x t level s2tte_is_assigned_destroyed false ;;
          if b3 then dec s2tte_create_assigned_destroyed else err level
  else err level.

(** rtt.c:288-481 *)
Definition smc_rtt_fold (c : cfg) (rd_addr map_addr ulevel : N) : prog res :=
  let level := sgn64 ulevel in
  ok <- find_lock_granule c rd_addr RD ;;
  if negb ok then Ret (res0 RMI_ERROR_INPUT)
  else
    map_slot SLOT_RD ;;;
    r <- get_rd rd_addr ;;
    v <- validate_rtt_structure_cmds map_addr level r ;;
    if negb v then unmap_slot SLOT_RD ;;; granule_unlock rd_addr ;;; Ret (res0 RMI_ERROR_INPUT)
    else
      let x := rd_ctx r in
      unmap_slot SLOT_RD ;;;
      granule_lock (g_rtt x) RTT ;;;
      granule_unlock rd_addr ;;;
      wi <- s2tt_walk_lock_unlock c x map_addr (level - 1) ;;
      let llt := w_llt wi in
      out <-
        (if negb (w_level wi =? level - 1)%Z then Ret (res0 (pack_return_code RMI_ERROR_RTT (w_level wi)))
         else
           map_slot SLOT_RTT ;;;
           pw <- rd_word llt (w_index wi) ;;
           out <-
             (if negb (s2tte_is_table pw (level - 1)) then
                Ret (res0 (pack_return_code RMI_ERROR_RTT (level - 1)))
              else
                rtt_addr <- s2tte_pa_ x pw (level - 1) ;;
                ok <- find_lock_granule c rtt_addr RTT ;;
                assert_ ok ;;;
                map_slot SLOT_RTT2 ;;;
                t <- get_table rtt_addr ;;
                fp <- fold_parent_s2tte x llt rtt_addr t level (w_level wi) ;;
                out <-
                  (match fp with
                   | inr code => Ret (res0 code)
                   | inl w =>
                       wr_word llt (w_index wi) 0 ;;;
                       (if s2tte_is_assigned_ram w (level - 1) || s2tte_is_assigned_ns w (level - 1)
                        then s2tt_invalidate_pages_in_block x map_addr
                        else s2tt_invalidate_block x map_addr) ;;;
                       wr_word llt (w_index wi) w ;;;
                       granule_memzero_mapped rtt_addr ;;;
                       granule_set_state rtt_addr DELEGATED ;;;
                       Ret (mkRes RMI_SUCCESS rtt_addr 0 0 0)
                   end) ;;
                unmap_slot SLOT_RTT2 ;;;
                granule_unlock rtt_addr ;;;
                Ret out) ;;
           unmap_slot SLOT_RTT ;;;
           Ret out) ;;
      granule_unlock llt ;;;
      Ret out.

(** rtt.c:483-609 *)
Definition smc_rtt_destroy (c : cfg) (rd_addr map_addr ulevel : N) : prog res :=
  let level := sgn64 ulevel in
  ok <- find_lock_granule c rd_addr RD ;;
  if negb ok then Ret (res0 RMI_ERROR_INPUT)
  else
    map_slot SLOT_RD ;;;
    r <- get_rd rd_addr ;;
    v <- validate_rtt_structure_cmds map_addr level r ;;
    if negb v then unmap_slot SLOT_RD ;;; granule_unlock rd_addr ;;; Ret (res0 RMI_ERROR_INPUT)
    else
      let x := rd_ctx r in
      let in_par := addr_in_par r map_addr in
      unmap_slot SLOT_RD ;;;
      granule_lock (g_rtt x) RTT ;;;
      granule_unlock rd_addr ;;;
      wi <- s2tt_walk_lock_unlock c x map_addr (level - 1) ;;
      let llt := w_llt wi in
      map_slot SLOT_RTT ;;;
      pw <- rd_word llt (w_index wi) ;;
      (* x0, x1 and skip_non_live *)
      out <-
        (if negb (w_level wi =? level - 1)%Z || negb (s2tte_is_table pw (level - 1)) then
           Ret (pack_return_code RMI_ERROR_RTT (w_level wi), 0, true)
         else
           rtt_addr <- s2tte_pa_ x pw (level - 1) ;;
           ok <- find_lock_granule c rtt_addr RTT ;;
           assert_ ok ;;;
           ref <- rd_ref rtt_addr ;;
           out <-
             (if negb (ref =? 0) then Ret (pack_return_code RMI_ERROR_RTT level, 0, false)
              else
                map_slot SLOT_RTT2 ;;;
                let w := if in_par then s2tte_create_unassigned_destroyed else s2tte_create_unassigned_ns in
                atomic_granule_put llt ;;;
                wr_word llt (w_index wi) 0 ;;;
                (if in_par then s2tt_invalidate_block x map_addr
                 else s2tt_invalidate_pages_in_block x map_addr) ;;;
                wr_word llt (w_index wi) w ;;;
                granule_memzero_mapped rtt_addr ;;;
                granule_set_state rtt_addr DELEGATED ;;;
                unmap_slot SLOT_RTT2 ;;;
                Ret (RMI_SUCCESS, rtt_addr, true)) ;;
           granule_unlock rtt_addr ;;;
           Ret out) ;;
      x2 <- (if snd out then t <- get_table llt ;; s2tt_skip_non_live_entries_ x map_addr t wi
             else Ret map_addr) ;;
      unmap_slot SLOT_RTT ;;;
      granule_unlock llt ;;;
      Ret (mkRes (fst (fst out)) (snd (fst out)) x2 0 0).

(** rtt.c:622-735; [host_s2tte] is [Some] for MAP_NS and [None] for UNMAP_NS *)
Definition map_unmap_ns (c : cfg) (rd_addr map_addr : N) (level : Z) (host_s2tte : option N) : prog res :=
  ok <- find_lock_granule c rd_addr RD ;;
  if negb ok then Ret (res0 RMI_ERROR_INPUT)
  else
    map_slot SLOT_RD ;;;
    r <- get_rd rd_addr ;;
    let x := rd_ctx r in
    let lpa2 := enable_lpa2 x in
    let fail := unmap_slot SLOT_RD ;;; granule_unlock rd_addr ;;; Ret (res0 RMI_ERROR_INPUT) in
    hv <- (match host_s2tte with
           | Some h => assert_ (S2TT_MIN_BLOCK_LEVEL <=? level)%Z ;;; Ret (host_ns_s2tte_is_valid lpa2 h level)
           | None => Ret true
           end) ;;
    if negb hv then fail
    else
      v <- validate_rtt_map_cmds map_addr level r ;;
      if negb v then fail
      else if addr_in_par r map_addr then fail
      else
        unmap_slot SLOT_RD ;;;
        granule_lock (g_rtt x) RTT ;;;
        granule_unlock rd_addr ;;;
        wi <- s2tt_walk_lock_unlock c x map_addr level ;;
        let llt := w_llt wi in
        out <-
          (match host_s2tte with
           | Some h =>
               if negb (w_level wi =? level)%Z then Ret (res0 (pack_return_code RMI_ERROR_RTT (w_level wi)))
               else
                 map_slot SLOT_RTT ;;;
                 w <- rd_word llt (w_index wi) ;;
                 out <-
                   (if negb (s2tte_is_unassigned_ns w) then Ret (res0 (pack_return_code RMI_ERROR_RTT level))
                    else
                      nw <- s2tte_create_assigned_ns_ x h level ;;
                      wr_word llt (w_index wi) nw ;;;
                      Ret (res0 RMI_SUCCESS)) ;;
                 unmap_slot SLOT_RTT ;;;
                 Ret out
           | None =>
               map_slot SLOT_RTT ;;;
               w <- rd_word llt (w_index wi) ;;
               code <-
                 (if negb (w_level wi =? level)%Z || negb (s2tte_is_assigned_ns w (w_level wi)) then
                    Ret (pack_return_code RMI_ERROR_RTT (w_level wi))
                  else
                    wr_word llt (w_index wi) s2tte_create_unassigned_ns ;;;
                    (if (level =? S2TT_PAGE_LEVEL)%Z then s2tt_invalidate_page x map_addr
                     else s2tt_invalidate_block x map_addr) ;;;
                    Ret RMI_SUCCESS) ;;
               t <- get_table llt ;;
               top <- s2tt_skip_non_live_entries_ x map_addr t wi ;;
               unmap_slot SLOT_RTT ;;;
               Ret (mkRes code top 0 0 0)
           end) ;;
        granule_unlock llt ;;;
        Ret out.

(** rtt.c:737-753 *)
Definition smc_rtt_map_unprotected (c : cfg) (rd_addr map_addr ulevel s2tte : N) : prog N :=
  let level := sgn64 ulevel in
  if (level <? S2TT_MIN_BLOCK_LEVEL)%Z || (S2TT_PAGE_LEVEL <? level)%Z then Ret RMI_ERROR_INPUT
  else out <- map_unmap_ns c rd_addr map_addr level (Some s2tte) ;; Ret (x0 out).

(** rtt.c:755-768 *)
Definition smc_rtt_unmap_unprotected (c : cfg) (rd_addr map_addr ulevel : N) : prog res :=
  let level := sgn64 ulevel in
  if (level <? S2TT_MIN_BLOCK_LEVEL)%Z || (S2TT_PAGE_LEVEL <? level)%Z then Ret (res0 RMI_ERROR_INPUT)
  else map_unmap_ns c rd_addr map_addr level None.

(** Conversion of [long] to a register *)
Definition of_long (z : Z) : N := Z.to_N (z mod 2 ^ 64).

(** rtt.c:811-849: x2, x3 and x4 *)
Definition read_entry_result (x : s2ctx) (w : N) (l : Z) : prog (N * N * N) :=
  if s2tte_is_unassigned_empty w then Ret (RMI_UNASSIGNED, 0, RIPAS_EMPTY)
  else if s2tte_is_unassigned_ram w then Ret (RMI_UNASSIGNED, 0, RIPAS_RAM)
  else if s2tte_is_unassigned_destroyed w then Ret (RMI_UNASSIGNED, 0, RIPAS_DESTROYED)
  else if s2tte_is_assigned_empty w l then pa <- s2tte_pa_ x w l ;; Ret (RMI_ASSIGNED, pa, RIPAS_EMPTY)
  else if s2tte_is_assigned_ram w l then pa <- s2tte_pa_ x w l ;; Ret (RMI_ASSIGNED, pa, RIPAS_RAM)
  else if s2tte_is_assigned_destroyed w l then
    pa <- s2tte_pa_ x w l ;; Ret (RMI_ASSIGNED, pa, RIPAS_DESTROYED)
  else if s2tte_is_unassigned_ns w then Ret (RMI_UNASSIGNED, 0, RIPAS_EMPTY)
  else if s2tte_is_assigned_ns w l then
    assert_ (S2TT_MIN_BLOCK_LEVEL <=? l)%Z ;;;
    Ret (RMI_ASSIGNED, host_ns_s2tte (enable_lpa2 x) w l, RIPAS_EMPTY)
  else if s2tte_is_table w l then pa <- s2tte_pa_ x w l ;; Ret (RMI_TABLE, pa, RIPAS_EMPTY)
  else Panic.

(** rtt.c:770-855 *)
Definition smc_rtt_read_entry (c : cfg) (rd_addr map_addr ulevel : N) : prog res :=
  let level := sgn64 ulevel in
  ok <- find_lock_granule c rd_addr RD ;;
  if negb ok then Ret (res0 RMI_ERROR_INPUT)
  else
    map_slot SLOT_RD ;;;
    r <- get_rd rd_addr ;;
    v <- validate_rtt_entry_cmds map_addr level r ;;
    if negb v then unmap_slot SLOT_RD ;;; granule_unlock rd_addr ;;; Ret (res0 RMI_ERROR_INPUT)
    else
      let x := rd_ctx r in
      unmap_slot SLOT_RD ;;;
      granule_lock (g_rtt x) RTT ;;;
      granule_unlock rd_addr ;;;
      wi <- s2tt_walk_lock_unlock c x map_addr level ;;
      map_slot SLOT_RTT ;;;
      w <- rd_word (w_llt wi) (w_index wi) ;;
      out <- read_entry_result x w (w_level wi) ;;
      unmap_slot SLOT_RTT ;;;
      granule_unlock (w_llt wi) ;;;
      Ret (mkRes RMI_SUCCESS (of_long (w_level wi)) (fst (fst out)) (snd (fst out)) (snd out)).

(** rtt.c:857-869 *)
Definition validate_data_create_unknown (map_addr : N) (r : rdesc) : prog N :=
  if negb (addr_in_par r map_addr) then Ret RMI_ERROR_INPUT
  else
    v <- validate_map_addr map_addr S2TT_PAGE_LEVEL r ;;
    Ret (if negb v then RMI_ERROR_INPUT else RMI_SUCCESS).

(** rtt.c:871-879 *)
Definition validate_data_create (map_addr : N) (r : rdesc) : prog N :=
  if negb (rd_state r =? REALM_NEW) then Ret RMI_ERROR_REALM else validate_data_create_unknown map_addr r.

(** Update of the measurement of a realm *)
Definition set_meas (r : rdesc) (slot m : N) : rdesc :=
  mkRd (rd_state r) (rd_rec_count r) (upd (rd_meas r) slot m) (rd_ctx r) (rd_num_rec_aux r)
       (rd_algorithm r) (rd_pmu_enabled r) (rd_pmu_num_ctrs r) (rd_simd r) (rd_rpv r).
Definition RIM_MEASUREMENT_SLOT : N := 0.

(** rtt.c:887-1005.  [src] is [None] for DATA_CREATE_UNKNOWN and [Some (d, flags)]
    for DATA_CREATE, where [d] is what the copy from the source granule
    delivers, or [None] when the copy faults. *)
Definition data_create (c : cfg) (rd_addr data_addr map_addr : N) (src : option (option (N -> N) * N)) : prog N :=
  ok <- find_lock_two_granules c data_addr DELEGATED rd_addr RD ;;
  if negb ok then Ret RMI_ERROR_INPUT
  else
    map_slot SLOT_RD ;;;
    r <- get_rd rd_addr ;;
    v <- (match src with
          | Some _ => validate_data_create map_addr r
          | None => validate_data_create_unknown map_addr r
          end) ;;
    let x := rd_ctx r in
    out <-
      (if negb (v =? RMI_SUCCESS) then Ret (v, DELEGATED)
       else if negb (enable_lpa2 x) && (2 ^ S2TT_MAX_PA_BITS <=? data_addr) then Ret (RMI_ERROR_INPUT, DELEGATED)
       else
         granule_lock (g_rtt x) RTT ;;;
         wi <- s2tt_walk_lock_unlock c x map_addr S2TT_PAGE_LEVEL ;;
         let llt := w_llt wi in
         out <-
           (if negb (w_level wi =? S2TT_PAGE_LEVEL)%Z then
              Ret (pack_return_code RMI_ERROR_RTT (w_level wi), DELEGATED)
            else
              map_slot SLOT_RTT ;;;
              w <- rd_word llt (w_index wi) ;;
              out <-
                (if negb (s2tte_is_unassigned w) then
                   Ret (pack_return_code RMI_ERROR_RTT S2TT_PAGE_LEVEL, DELEGATED)
                 else
                   nw <-
                     (match src with
                      | Some (d, flags) =>
                          map_slot SLOT_DELEGATED ;;;
                          map_slot SLOT_NS ;;; unmap_slot SLOT_NS ;;;
                          (match d with
                           | None =>
                               granule_memzero_mapped data_addr ;;;
                               unmap_slot SLOT_DELEGATED ;;;
                               Ret None
                           | Some d =>
                               wr_mem data_addr (CW d) ;;;
                               put_rd rd_addr
                                 (set_meas r RIM_MEASUREMENT_SLOT
                                    (measurement_data_granule_measure c (rd_meas r RIM_MEASUREMENT_SLOT)
                                       (rd_algorithm r) d map_addr flags)) ;;;
                               unmap_slot SLOT_DELEGATED ;;;
                               assert_ (create_assigned_ok x data_addr S2TT_PAGE_LEVEL) ;;;
                               Ret (Some (s2tte_create_assigned_ram (enable_lpa2 x) data_addr S2TT_PAGE_LEVEL))
                           end)
                      | None =>
                          assert_ (create_assigned_ok x data_addr S2TT_PAGE_LEVEL &&
                                   (EXTRACT 2 5 (N.land w S2TTE_INVALID_RIPAS_MASK) <=? 2)) ;;;
                          Ret (Some (s2tte_create_assigned_unchanged (enable_lpa2 x) w data_addr S2TT_PAGE_LEVEL))
                      end) ;;
                   match nw with
                   | None => Ret (RMI_ERROR_INPUT, DELEGATED)
                   | Some nw =>
                       wr_word llt (w_index wi) nw ;;;
                       atomic_granule_get llt ;;;
                       Ret (RMI_SUCCESS, DATA)
                   end) ;;
              unmap_slot SLOT_RTT ;;;
              Ret out) ;;
         granule_unlock llt ;;;
         Ret out) ;;
    unmap_slot SLOT_RD ;;;
    granule_unlock rd_addr ;;;
    granule_unlock_transition data_addr (snd out) ;;;
    Ret (fst out).

(** rtt.c:1007-1027; granule.h:125-131 reads the state without the lock *)
Definition smc_data_create (c : cfg) (data : option (N -> N)) (rd_addr data_addr map_addr src_addr flags : N) : prog N :=
  if negb (flags =? RMI_NO_MEASURE_CONTENT) && negb (flags =? RMI_MEASURE_CONTENT) then Ret RMI_ERROR_INPUT
  else if negb (find_granule c src_addr) then Ret RMI_ERROR_INPUT
  else
    st <- rd_state_ src_addr ;;
    if negb (gstate_eqb st NS) then Ret RMI_ERROR_INPUT
    else data_create c rd_addr data_addr map_addr (Some (data, flags)).

(** rtt.c:1029-1034 *)
Definition smc_data_create_unknown (c : cfg) (rd_addr data_addr map_addr : N) : prog N :=
  data_create c rd_addr data_addr map_addr None.

(** rtt.c:1036-1123 *)
Definition smc_data_destroy (c : cfg) (rd_addr map_addr : N) : prog res :=
  ok <- find_lock_granule c rd_addr RD ;;
  if negb ok then Ret (res0 RMI_ERROR_INPUT)
  else
    map_slot SLOT_RD ;;;
    r <- get_rd rd_addr ;;
    v <- (if negb (addr_in_par r map_addr) then Ret false else validate_map_addr map_addr S2TT_PAGE_LEVEL r) ;;
    if negb v then unmap_slot SLOT_RD ;;; granule_unlock rd_addr ;;; Ret (res0 RMI_ERROR_INPUT)
    else
      let x := rd_ctx r in
      unmap_slot SLOT_RD ;;;
      granule_lock (g_rtt x) RTT ;;;
      granule_unlock rd_addr ;;;
      wi <- s2tt_walk_lock_unlock c x map_addr S2TT_PAGE_LEVEL ;;
      let llt := w_llt wi in
      map_slot SLOT_RTT ;;;
      out <-
        (if negb (w_level wi =? S2TT_PAGE_LEVEL)%Z then
           Ret (pack_return_code RMI_ERROR_RTT (w_level wi), 0)
         else
           w <- rd_word llt (w_index wi) ;;
           d <-
             (if s2tte_is_assigned_ram w S2TT_PAGE_LEVEL then
                pa <- s2tte_pa_ x w S2TT_PAGE_LEVEL ;;
                wr_word llt (w_index wi) s2tte_create_unassigned_destroyed ;;;
                s2tt_invalidate_page x map_addr ;;;
                Ret (Some pa)
              else if s2tte_is_assigned_empty w S2TT_PAGE_LEVEL then
                pa <- s2tte_pa_ x w S2TT_PAGE_LEVEL ;;
                wr_word llt (w_index wi) s2tte_create_unassigned_empty ;;;
                Ret (Some pa)
              else if s2tte_is_assigned_destroyed w S2TT_PAGE_LEVEL then
                pa <- s2tte_pa_ x w S2TT_PAGE_LEVEL ;;
                wr_word llt (w_index wi) s2tte_create_unassigned_destroyed ;;;
                Ret (Some pa)
              else Ret None) ;;
           match d with
           | None => Ret (pack_return_code RMI_ERROR_RTT S2TT_PAGE_LEVEL, 0)
           | Some data_addr =>
               atomic_granule_put llt ;;;
               ok <- find_lock_granule c data_addr DATA ;;
               assert_ ok ;;;
               buffer_granule_memzero data_addr SLOT_DELEGATED ;;;
               granule_unlock_transition data_addr DELEGATED ;;;
               Ret (RMI_SUCCESS, data_addr)
           end) ;;
      t <- get_table llt ;;
      x2 <- s2tt_skip_non_live_entries_ x map_addr t wi ;;
      unmap_slot SLOT_RTT ;;;
      granule_unlock llt ;;;
      Ret (mkRes (fst out) (snd out) x2 0 0).

(** rtt.c:1136-1205.  [UErr] is a negative return value; [UOk w tlbi] writes
    [w] and returns [tlbi]; [UNone] returns 0 without writing. *)
Inductive upd_ripas := UErr | UNone | UOk (w : N) (need_tlbi : bool).
Definition update_ripas (x : s2ctx) (w : N) (level : Z) (ripas_val change : N) : prog upd_ripas :=
  let lpa2 := enable_lpa2 x in
  let with_pa (create : bool -> N -> Z -> N) (t : bool) : prog upd_ripas :=
    pa <- s2tte_pa_ x w level ;;
    assert_ (create_assigned_ok x pa level) ;;;
    Ret (UOk (create lpa2 pa level) t) in
  if negb (s2tte_has_ripas w level) then Ret UErr
  else if ripas_val =? RIPAS_RAM then
    if s2tte_is_unassigned_empty w then Ret (UOk s2tte_create_unassigned_ram false)
    else if s2tte_is_unassigned_destroyed w then
      if change =? CHANGE_DESTROYED then Ret (UOk s2tte_create_unassigned_ram false) else Ret UErr
    else if s2tte_is_assigned_empty w level then with_pa s2tte_create_assigned_ram false
    else if s2tte_is_assigned_destroyed w level then
      if change =? CHANGE_DESTROYED then with_pa s2tte_create_assigned_ram false else Ret UErr
    else Ret UNone
  else if ripas_val =? RIPAS_EMPTY then
    if s2tte_is_unassigned_ram w then Ret (UOk s2tte_create_unassigned_empty false)
    else if s2tte_is_unassigned_destroyed w then
      if change =? CHANGE_DESTROYED then Ret (UOk s2tte_create_unassigned_empty false) else Ret UErr
    else if s2tte_is_assigned_ram w level then with_pa s2tte_create_assigned_empty true
    else if s2tte_is_assigned_destroyed w level then
      if change =? CHANGE_DESTROYED then with_pa s2tte_create_assigned_empty true else Ret UErr
    else Ret UNone
  else Ret (UOk w false).

(** rtt.c:1275-1298; yields the address reached and the new measurement *)
Fixpoint init_ripas_loop (fuel : nat) (c : cfg) (llt alg : N) (top map_size : N) (index addr rim : N) : prog (N * N) :=
  match fuel with
  | O => Ret (addr, rim)
  | S f =>
      let next := wrap64 (addr + map_size) in
      if top <? next then Ret (addr, rim)
      else
        w <- rd_word llt index ;;
        let continue :=
          init_ripas_loop f c llt alg top map_size (index + 1) next
            (measurement_init_ripas_measure c rim alg addr next) in
        if s2tte_is_unassigned_empty w then
          wr_word llt index s2tte_create_unassigned_ram ;;; continue
        else if negb (s2tte_is_unassigned_ram w) then Ret (addr, rim)
        else continue
  end.

(** rtt.c:1207-1313.  Each round of the loop writes the measurement; here it is
    written back once, after the last round. *)
Definition smc_rtt_init_ripas (c : cfg) (rd_addr base top : N) : prog res :=
  if top <=? base then Ret (res0 RMI_ERROR_INPUT)
  else
    ok <- find_lock_granule c rd_addr RD ;;
    if negb ok then Ret (res0 RMI_ERROR_INPUT)
    else
      map_slot SLOT_RD ;;;
      r <- get_rd rd_addr ;;
      v1 <- validate_map_addr base S2TT_PAGE_LEVEL r ;;
      v2 <- (if v1 then validate_map_addr top S2TT_PAGE_LEVEL r else Ret false) ;;
      let v := v2 && addr_in_par r base && addr_in_par r (wrap64 (top + 2 ^ 64 - GRANULE_SIZE)) in
      if negb v then unmap_slot SLOT_RD ;;; granule_unlock rd_addr ;;; Ret (res0 RMI_ERROR_INPUT)
      else if negb (rd_state r =? REALM_NEW) then
        unmap_slot SLOT_RD ;;; granule_unlock rd_addr ;;; Ret (res0 RMI_ERROR_REALM)
      else
        let x := rd_ctx r in
        granule_lock (g_rtt x) RTT ;;;
        wi <- s2tt_walk_lock_unlock c x base S2TT_PAGE_LEVEL ;;
        let llt := w_llt wi in
        let level := w_level wi in
        map_slot SLOT_RTT ;;;
        let map_size := s2tte_map_size level in
        let addr := N.ldiff base (map_size - 1) in
        out <-
          (if negb (addr =? base) then Ret (res0 (pack_return_code RMI_ERROR_RTT level))
           else
             let n := if (level =? S2TT_MIN_STARTING_LEVEL_LPA2)%Z then S2TTES_PER_S2TT_LM1 else S2TTES_PER_S2TT in
             o <- init_ripas_loop (N.to_nat (n - w_index wi)) c llt (rd_algorithm r) top map_size
                    (w_index wi) addr (rd_meas r RIM_MEASUREMENT_SLOT) ;;
             if base <? fst o then
               put_rd rd_addr (set_meas r RIM_MEASUREMENT_SLOT (snd o)) ;;;
               Ret (mkRes RMI_SUCCESS (fst o) 0 0 0)
             else Ret (res0 (pack_return_code RMI_ERROR_RTT level))) ;;
        unmap_slot SLOT_RTT ;;;
        unmap_slot SLOT_RD ;;;
        granule_unlock llt ;;;
        granule_unlock rd_addr ;;;
        Ret out.

(** rtt.c:1338-1365; yields the address reached *)
Fixpoint set_ripas_loop (fuel : nat) (x : s2ctx) (llt : N) (level : Z) (top ripas_val change : N) (index addr : N) : prog N :=
  match fuel with
  | O => Ret addr
  | S f =>
      let map_size := s2tte_map_size level in
      if top <? wrap64 (addr + map_size) then Ret addr
      else
        w <- rd_word llt index ;;
        u <- update_ripas x w level ripas_val change ;;
        match u with
        | UErr => Ret addr
        | UNone => set_ripas_loop f x llt level top ripas_val change (index + 1) (wrap64 (addr + map_size))
        | UOk nw t =>
            wr_word llt index nw ;;;
            (if t then
               if (level =? S2TT_PAGE_LEVEL)%Z then s2tt_invalidate_page x addr
               else s2tt_invalidate_block x addr
             else Ret tt) ;;;
            set_ripas_loop f x llt level top ripas_val change (index + 1) (wrap64 (addr + map_size))
        end
  end.

(** rtt.c:1315-1374 *)
Definition rtt_set_ripas_range (x : s2ctx) (base top : N) (wi : walk) (ripas_val change : N) : prog res :=
  let level := w_level wi in
  let map_size := s2tte_map_size level in
  let addr := N.ldiff base (map_size - 1) in
  if negb (addr =? base) then Ret (res0 (pack_return_code RMI_ERROR_RTT level))
  else
    a <- set_ripas_loop (N.to_nat (S2TTES_PER_S2TT - w_index wi)) x (w_llt wi) level top ripas_val change
           (w_index wi) addr ;;
    if base <? a then Ret (mkRes RMI_SUCCESS a 0 0 0)
    else Ret (res0 (pack_return_code RMI_ERROR_RTT level)).

(** rtt.c:1376-1476 *)
Definition smc_rtt_set_ripas (c : cfg) (rd_addr rec_addr base top : N) : prog res :=
  if top <=? base then Ret (res0 RMI_ERROR_INPUT)
  else
    ok <- find_lock_two_granules c rd_addr RD rec_addr REC ;;
    if negb ok then Ret (res0 RMI_ERROR_INPUT)
    else
      ref <- granule_refcount_read_acquire rec_addr ;;
      out <-
        (if negb (ref =? 0) then Ret (res0 RMI_ERROR_REC)
         else
           map_slot SLOT_REC ;;;
           r <- get_rec rec_addr ;;
           out <-
             (if negb (rd_addr =? r_g_rd r) then Ret (res0 RMI_ERROR_REC)
              else
                let q := r_set_ripas r in
                if negb (base =? sr_addr q) || (sr_top q <? top) then Ret (res0 RMI_ERROR_INPUT)
                else
                  map_slot SLOT_RD ;;;
                  d <- get_rd rd_addr ;;
                  v <- validate_map_addr base S2TT_PAGE_LEVEL d ;;
                  assert_ v ;;;
                  let x := rd_ctx d in
                  granule_lock (g_rtt x) RTT ;;;
                  wi <- s2tt_walk_lock_unlock c x base S2TT_PAGE_LEVEL ;;
                  v <- validate_map_addr base (w_level wi) d ;;
                  out <-
                    (if negb v then Ret (res0 (pack_return_code RMI_ERROR_RTT (w_level wi)))
                     else
                       map_slot SLOT_RTT ;;;
                       out <- rtt_set_ripas_range x base top wi (sr_ripas q) (sr_change_destroyed q) ;;
                       (if x0 out =? RMI_SUCCESS then
                          put_rec rec_addr
                            (set_req r (mkReq (sr_base q) (sr_top q) (x1 out) (sr_ripas q)
                                              (sr_change_destroyed q) (sr_response q)))
                        else Ret tt) ;;;
                       unmap_slot SLOT_RTT ;;;
                       Ret out) ;;
                  granule_unlock (w_llt wi) ;;;
                  unmap_slot SLOT_RD ;;;
                  Ret out) ;;
           unmap_slot SLOT_REC ;;;
           Ret out) ;;
      granule_unlock rec_addr ;;;
      granule_unlock rd_addr ;;;
      Ret out.
