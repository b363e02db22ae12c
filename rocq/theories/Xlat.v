(** lib/xlat: the stage 1 translation tables of the monitor itself, and on top of
    them the slot buffers (lib/slot_buf) through which it reaches granules.

    Memory is a function from addresses to 64-bit words; word accesses to the tables
    are at multiples of 8.  A table of level [l] is described by its height
    [h = 3 - l], so that recursion goes down to 0; heights run from 0 (level 3, pages)
    to 4 (level -1).  Cache maintenance, barriers and log output are left out, and so
    are the checks for NULL: pointers given to the functions are valid. *)
From Coq Require Import NArith ZArith List Bool.
From Verif Require Import Bits.
Import ListNotations.
Local Open Scope N_scope.

(** What the CPU tells: is_feat_lpa2_4k_present and arch_feat_get_pa_width
    (lib/arch/src/arch_features.c:17-35) *)
Record xarch := mkXarch { xa_lpa2 : bool; xa_width : N }.

(** lib/xlat/include/xlat_tables.h:210-216: struct xlat_mmap_region *)
Record mmap_region := mkMm { mm_pa : N; mm_va : N; mm_size : N; mm_attr : N; mm_gran : N }.

(** The error codes that are returned *)
Inductive xerr := X_EINVAL | X_EFAULT | X_ERANGE | X_EPERM | X_EALREADY | X_ENOMEM.

(** How a function ends: it returns, or an assertion fails or panic() is called *)
Inductive xres (A : Type) := XOk (a : A) | XPanic.
Arguments XOk {A}. Arguments XPanic {A}.

(** xlat_defs.h:68-70: XLAT_ADDR_SHIFT *)
Definition addr_shift (h : nat) : N := 12 + 9 * N.of_nat h.
(** xlat_defs.h:72-74: XLAT_BLOCK_SIZE, XLAT_BLOCK_MASK *)
Definition block_size (h : nat) : N := 2 ^ addr_shift h.
Definition block_mask (h : nat) : N := block_size h - 1.
(** 64-bit complement *)
Definition not64 (x : N) : N := N.ldiff (N.ones 64) x.
(** xlat_defs.h:49-51: XLAT_GET_TABLE_ENTRIES *)
Definition table_entries (h : nat) : N := if Nat.eqb h 4 then 16 else 512.
(** xlat_tables.h:31-33: XLAT_MIN_BLOCK_LVL, as a height: level 0 with LPA2, else level 1 *)
Definition max_block_height (A : xarch) : nat := if xa_lpa2 A then 3%nat else 2%nat.
(** xlat_defs.h:151-159: GET_XLAT_TABLE_LEVEL_BASE *)
Definition base_height (va_size : N) : nat :=
  if 2 ^ 48 <? va_size then 4%nat
  else if 2 ^ 39 <? va_size then 3%nat
  else if 2 ^ 30 <? va_size then 2%nat
  else if 2 ^ 21 <? va_size then 1%nat
  else 0%nat.

(** xlat_defs_private.h:22-35 and xlat_tables.h:97 *)
Definition INVALID_DESC : N := 0.
Definition VALID_DESC : N := 1.
Definition BLOCK_DESC : N := 1.
Definition TABLE_DESC : N := 3.
Definition PAGE_DESC : N := 3.
Definition DESC_MASK : N := 3.
Definition TRANSIENT_DESC : N := 2 ^ 55.

(** xlat_tables.h:102-173: the attributes of a region *)
Definition MT_TYPE (attr : N) : N := N.land attr (MASK 4 0).
Definition MT_DEVICE : N := 0.
Definition MT_MEMORY : N := 2.
Definition MT_TRANSIENT : N := 3.
Definition MT_RW : N := 2 ^ 4.
Definition MT_EXECUTE_NEVER : N := 2 ^ 5.
Definition MT_NG : N := 2 ^ 7.
Definition MT_NS : N := 2 ^ 8.
Definition MT_AP_UNPRIV : N := 2 ^ 9.
Definition MT_EXEC_UNPRIV : N := 2 ^ 10.
Definition MT_CODE : N := MT_MEMORY.
Definition MT_RW_DATA : N := N.lor (N.lor MT_MEMORY MT_RW) MT_EXECUTE_NEVER.
(** lib/xlat/include/xlat_high_va.h:33 *)
Definition XLAT_NG_DATA_ATTR : N := N.lor MT_RW_DATA MT_NG.

(** xlat_defs_private.h:45-64: UPPER_ATTRS, LOWER_ATTRS *)
Definition UPPER_ATTRS (x : N) : N := INPLACE 5 50 x.
Definition LOWER_ATTRS (x : N) : N := INPLACE 10 2 x.

(** xlat_defs_private.h:113-130: set_oa_to_tte *)
Definition set_oa (A : xarch) (oa : N) : N :=
  if xa_lpa2 A
  then N.lor (N.land oa (BIT_MASK 49 12)) (INPLACE 2 8 (EXTRACT 2 50 oa))
  else N.land oa (BIT_MASK 47 12).
(** xlat_tables.h:347-358: xlat_get_oa_from_tte *)
Definition get_oa (A : xarch) (tte : N) : N :=
  if xa_lpa2 A
  then N.lor (N.land tte (BIT_MASK 49 12)) (INPLACE 2 50 (EXTRACT 2 8 tte))
  else N.land tte (BIT_MASK 47 12).

Definition has (attr bit : N) : bool := negb (N.land attr bit =? 0).

(** lib/xlat/src/xlat_tables_core.c:356-470: xlat_desc, with xlat_arch_get_pas
    (xlat_tables_arch.c:282-285); None when an assertion fails *)
Definition xlat_desc (A : xarch) (attr pa : N) (h : nat) : option N :=
  if MT_TYPE attr =? MT_TRANSIENT then Some TRANSIENT_DESC
  else if negb (N.land pa (block_mask h) =? 0) then None
  else
    let d := set_oa A pa in
    let d := N.lor d (if Nat.eqb h 0 then PAGE_DESC else BLOCK_DESC) in
    let d := N.lor d (LOWER_ATTRS (2 ^ 8)) in
    let d := N.lor d (if N.land attr MT_NS =? 0 then 0 else LOWER_ATTRS (2 ^ 3)) in
    let d := N.lor d (if has attr MT_RW then LOWER_ATTRS 0 else LOWER_ATTRS (2 ^ 5)) in
    let d := if has attr MT_NG then N.lor d (LOWER_ATTRS (2 ^ 9)) else d in
    let d := if has attr MT_EXEC_UNPRIV then d else N.lor d (UPPER_ATTRS (2 ^ 4)) in
    let d := if has attr MT_AP_UNPRIV then N.lor d (LOWER_ATTRS (2 ^ 4)) else d in
    if MT_TYPE attr =? MT_DEVICE then
      Some (N.lor (N.lor d (LOWER_ATTRS 1)) (UPPER_ATTRS (2 ^ 3)))
    else if negb (MT_TYPE attr =? MT_MEMORY) then None
    else
      let d := if has attr MT_RW || has attr MT_EXECUTE_NEVER
               then N.lor d (UPPER_ATTRS (2 ^ 3)) else N.lor d (UPPER_ATTRS 1) in
      let d := N.lor d (LOWER_ATTRS 0) in
      Some (if xa_lpa2 A then d else N.lor d (INPLACE 2 8 3)).

(** xlat_contexts.h:33-41: struct xlat_ctx_tbls without next_table and initialized *)
Record xtbls := mkTbls { t_tables : N; t_num : N }.
(** The memory and next_table *)
Record xst := mkXst { x_mem : N -> N; x_next : N }.

Definition set_word (mem : N -> N) (a v : N) : N -> N := fun x => if x =? a then v else mem x.
(** &table[idx] *)
Definition entry_addr (table idx : N) : N := table + 8 * idx.

(** xlat_tables_core.c:62-77: xlat_tables_find_start_va *)
Definition find_start_va (mm : mmap_region) (base_va : N) (h : nat) : N :=
  if base_va <? mm_va mm then N.land (mm_va mm) (not64 (block_mask h)) else base_va.
(** xlat_tables_core.c:82-87: xlat_tables_va_to_index *)
Definition va_to_index (base_va va : N) (h : nat) : N :=
  N.shiftr (wrap64 (va + 2 ^ 64 - base_va)) (addr_shift h) mod 2 ^ 32.

(** xlat_tables_core.c:27-47 *)
Inductive action := ANone | AWrite | ACreate | ARecurse.

(** xlat_tables_core.c:93-235: xlat_tables_map_region_action; None for panic() *)
Definition map_region_action (A : xarch) (mm : mmap_region) (desc_type dest_pa entry_va : N) (h : nat) : option action :=
  let mm_end := wrap64 (mm_va mm + mm_size mm + (2 ^ 64 - 1)) in
  let entry_end := wrap64 (entry_va + block_size h - 1) in
  if (mm_va mm <=? entry_va) && (entry_end <=? mm_end) then
    match h with
    | O =>
        if desc_type =? PAGE_DESC then Some ANone
        else if negb (desc_type =? INVALID_DESC) then None
        else Some AWrite
    | _ =>
        if desc_type =? TABLE_DESC then Some ARecurse
        else if desc_type =? INVALID_DESC then
          if negb (N.land dest_pa (block_mask h) =? 0)
             || Nat.ltb (max_block_height A) h
             || (mm_gran mm <? block_size h)
          then Some ACreate else Some AWrite
        else if negb (desc_type =? BLOCK_DESC) then None
        else Some ANone
    end
  else if (mm_va mm <=? entry_end) || (entry_va <=? mm_end) then
    match h with
    | O => None
    | _ =>
        if desc_type =? INVALID_DESC then Some ACreate
        else if negb (desc_type =? TABLE_DESC) then None
        else Some ARecurse
    end
  else Some ANone.

(** xlat_tables_core.c:279-350: the loop of xlat_tables_map_region over the entries
    of a table; [n] counts the entries that are left, [sub] is the recursive call
    for the next level *)
Fixpoint map_loop (A : xarch) (T : xtbls) (mm : mmap_region) (h : nat)
    (sub : N -> N -> xst -> xres (xst * N)) (table : N) (n : nat) (idx idx_va : N) (st : xst)
    : xres (xst * N) :=
  match n with
  | O => XOk (st, wrap64 (idx_va + (2 ^ 64 - 1)))
  | S n =>
      let desc := x_mem st (entry_addr table idx) in
      let idx_pa := wrap64 (mm_pa mm + idx_va + (2 ^ 64 - mm_va mm)) in
      (* 341-347: the next entry, or the end of the region *)
      let next (st : xst) :=
        let idx_va := wrap64 (idx_va + block_size h) in
        if wrap64 (mm_va mm + mm_size mm + (2 ^ 64 - 1)) <=? idx_va
        then XOk (st, wrap64 (idx_va + (2 ^ 64 - 1)))
        else map_loop A T mm h sub table n (idx + 1) idx_va st in
      (* 311-318 and 324-331: the table of the next level *)
      let recurse (subtable : N) (st : xst) :=
        match sub idx_va subtable st with
        | XPanic => XPanic
        | XOk (st, end_va) =>
            if negb (end_va =? wrap64 (idx_va + block_size h - 1)) then XOk (st, end_va) else next st
        end in
      match map_region_action A mm (N.land desc DESC_MASK) idx_pa idx_va h with
      | None => XPanic
      | Some AWrite =>
          match xlat_desc A (mm_attr mm) idx_pa h with
          | None => XPanic
          | Some d => next (mkXst (set_word (x_mem st) (entry_addr table idx) d) (x_next st))
          end
      | Some ACreate =>
          (* 50-56: xlat_table_get_empty *)
          if x_next st <? t_num T then
            let subtable := t_tables T + 4096 * x_next st in
            recurse subtable
              (mkXst (set_word (x_mem st) (entry_addr table idx) (N.lor TABLE_DESC subtable)) (x_next st + 1))
          else XPanic
      | Some ARecurse => recurse (get_oa A desc) st
      | Some ANone => next st
      end
  end.

(** xlat_tables_core.c:246-351: xlat_tables_map_region.  The level is never out of
    bounds: it starts at the base level, grows by one in each recursive call, and at
    level 3 no recursive call is made. *)
Fixpoint map_region (A : xarch) (T : xtbls) (mm : mmap_region) (h : nat) (entries base_va table : N) (st : xst)
    : xres (xst * N) :=
  let idx_va := find_start_va mm base_va h in
  let idx := va_to_index base_va idx_va h in
  map_loop A T mm h
    (match h with O => fun _ _ _ => XPanic | S h => map_region A T mm h 512 end)
    table (N.to_nat (entries - idx)) idx idx_va st.

(** xlat_tables_core.c:500-516: the loop over the regions; false for -ENOMEM *)
Fixpoint map_regions (A : xarch) (T : xtbls) (h : nat) (l : list mmap_region) (st : xst) : xres (xst * bool) :=
  match l with
  | [] => XOk (st, true)
  | mm :: l =>
      match map_region A T mm h (table_entries h) 0 (t_tables T) st with
      | XPanic => XPanic
      | XOk (st, end_va) =>
          if end_va =? wrap64 (mm_va mm + mm_size mm + (2 ^ 64 - 1))
          then map_regions A T h l st else XOk (st, false)
      end
  end.

(** xlat_contexts.h:48-90: struct xlat_ctx_cfg without the fields that are only printed *)
Inductive va_region := LowRegion | HighRegion.
Record xcfg := mkCfg { c_va_size : N; c_mmap : list mmap_region; c_base_va : N; c_height : nat; c_region : va_region }.

Definition page_aligned (x : N) : bool := N.land x 4095 =? 0.

(** xlat_tables_arch.c:236-239: xlat_arch_get_max_supported_pa *)
Definition max_pa (A : xarch) : N := 2 ^ xa_width A - 1.

Definition transient (mm : mmap_region) : bool := MT_TYPE (mm_attr mm) =? MT_TRANSIENT.

(** xlat_contexts.c:147-162: the addresses of the region overlap with those of an
    earlier one *)
Definition pa_clash (mm j : mmap_region) : bool :=
  negb (transient j) &&
  (let end_pa := wrap64 (mm_pa mm + mm_size mm + (2 ^ 64 - 1)) in
   let j_end := wrap64 (mm_pa j + mm_size j + (2 ^ 64 - 1)) in
   ((mm_pa j <=? end_pa) && (end_pa <=? j_end)) || ((mm_pa j <=? mm_pa mm) && (mm_pa mm <=? j_end))).

(** xlat_contexts.c:46-164: one turn of the loop of validate_mmap_regions.  [done]
    are the regions before this one, the last one first, as the function leaves
    them.  Returns the region, as it is left, and the error. *)
Definition validate_one (A : xarch) (region : va_region) (ctx_base va_size : N)
    (done : list mmap_region) (mm : mmap_region) : mmap_region * option xerr :=
  let end_pa := wrap64 (mm_pa mm + mm_size mm + (2 ^ 64 - 1)) in
  let early :=
    match region with
    | LowRegion =>
        negb (N.land (mm_va mm) (BIT_MASK 63 52) =? 0)
        || negb (N.land (wrap64 (mm_va mm + mm_size mm)) (BIT_MASK 63 52) =? 0)
    | HighRegion => mm_va mm <? ctx_base
    end in
  if early then (mm, Some X_EINVAL)
  else
    (* 85: mm[i].base_va is written *)
    let mm' := match region with
               | LowRegion => mm
               | HighRegion => mkMm (mm_pa mm) (mm_va mm - ctx_base) (mm_size mm) (mm_attr mm) (mm_gran mm)
               end in
    let end_va := match region with
                  | LowRegion => wrap64 (mm_va mm + mm_size mm + (2 ^ 64 - 1))
                  | HighRegion => wrap64 (mm_va mm' + mm_size mm)
                  end in
    (mm',
     if negb (page_aligned (mm_pa mm)) || negb (page_aligned (mm_va mm')) || negb (page_aligned (mm_size mm))
     then Some X_EFAULT
     else if negb (mm_gran mm =? block_size 3) && negb (mm_gran mm =? block_size 2)
             && negb (mm_gran mm =? block_size 1) && negb (mm_gran mm =? block_size 0)
     then Some X_EINVAL
     else if (end_pa <? mm_pa mm) || (end_va <? mm_va mm') then Some X_ERANGE
     else if va_size <? end_va then Some X_ERANGE
     else if max_pa A <? end_pa then Some X_ERANGE
     else
       match done with
       | [] => None
       | prev :: _ =>
           if mm_va mm' <? mm_va prev then Some X_EPERM
           else if mm_va mm' <=? wrap64 (mm_va prev + mm_size prev + (2 ^ 64 - 1)) then Some X_EPERM
           else if transient mm then None
           else if existsb (pa_clash mm) done then Some X_EPERM
           else None
       end).

(** xlat_contexts.c:30-167: validate_mmap_regions *)
Fixpoint validate_from (A : xarch) (region : va_region) (ctx_base va_size : N)
    (done rest : list mmap_region) : list mmap_region * option xerr :=
  match rest with
  | [] => (rev done, None)
  | mm :: rest =>
      match validate_one A region ctx_base va_size done mm with
      | (mm, Some e) => (rev done ++ mm :: rest, Some e)
      | (mm, None) => validate_from A region ctx_base va_size (mm :: done) rest
      end
  end.

(** xlat_contexts.c:230-284: xlat_ctx_cfg_init, with add_mmap_to_ctx_cfg (169-228).
    [inited] tells whether the configuration was initialized before.  The regions are
    an array of the caller, which the function changes. *)
Definition xlat_ctx_cfg_init (A : xarch) (inited : bool) (region : va_region) (mm : list mmap_region) (va_size : N)
    : list mmap_region * (xerr + xcfg) :=
  if negb (N.land va_size 4095 =? 0) then (mm, inl X_EINVAL)
  else if (2 ^ (if xa_lpa2 A then 52 else 48) <? va_size) || (va_size <? 2 ^ 16) then (mm, inl X_EINVAL)
  else if inited then (mm, inl X_EALREADY)
  else
    let base := match region with LowRegion => 0 | HighRegion => wrap64 (2 ^ 64 - va_size) end in
    if match mm with [] => true | _ => false end then (mm, inl X_EINVAL)
    else
      match validate_from A region base va_size [] mm with
      | (mm, Some e) => (mm, inl e)
      | (mm, None) => (mm, inr (mkCfg va_size mm base (base_height va_size) region))
      end.

(** xlat_tables_core.c:488-493: all tables are cleared *)
Definition clear_tables (T : xtbls) (mem : N -> N) : N -> N :=
  fun a => if (t_tables T <=? a) && (a <? t_tables T + 4096 * t_num T) then INVALID_DESC else mem a.

(** xlat_contexts.c:286-327: xlat_ctx_init, with xlat_init_tables_ctx
    (xlat_tables_core.c:472-533).  [inited] tells whether the tables were initialized
    before. *)
Definition xlat_ctx_init (A : xarch) (inited : bool) (cfg : xcfg) (T : xtbls) (mem : N -> N) : xres (xerr + xst) :=
  if t_num T =? 0 then XOk (inl X_EINVAL)
  else if negb (t_tables T mod 4096 =? 0) then XOk (inl X_EINVAL)
  else if inited then XOk (inl X_EALREADY)
  else
    match map_regions A T (c_height cfg) (c_mmap cfg) (mkXst (clear_tables T mem) 1) with
    | XPanic => XPanic
    | XOk (st, true) => XOk (inr st)
    | XOk (st, false) => XOk (inl X_ENOMEM)
    end.

(** The number of low zero bits of a word that is not 0: __builtin_ctzll *)
Fixpoint pos_ctz (p : positive) : N := match p with xO p => 1 + pos_ctz p | _ => 0 end.
Definition ctz (x : N) : N := match x with 0 => 64 | Npos p => pos_ctz p end.

(** xlat_tables_arch.c:133-234: xlat_arch_setup_mmu_cfg, the fields that select the
    tables: region, txsz and ttbrx.  The granule size is supported (153-156); the rest
    of TCR_EL2 and MAIR_EL2 are constants.  None for -EPERM: a physical address size
    of more than 48 bits without LPA2 (44-82). *)
Record xmmu := mkMmu { mu_region : va_region; mu_txsz : N; mu_ttbr : N }.
Definition setup_mmu_cfg (A : xarch) (cfg : xcfg) (T : xtbls) : option xmmu :=
  let m := max_pa A in
  if negb (N.land m (BIT_MASK 63 52) =? 0) then None
  else if negb (N.land m (BIT_MASK 51 48) =? 0) && negb (xa_lpa2 A) then None
  else
    let ttbr := N.land (t_tables T) (MASK 47 1) in
    Some (mkMmu (c_region cfg) (64 - ctz (c_va_size cfg))
            (match c_region cfg with HighRegion => N.ldiff ttbr 1 | LowRegion => N.lor ttbr 1 end)).

(* ------------------------------------------------------------------ *)
(** * Dynamic mappings *)

(** xlat_tables.h:221-225: struct xlat_llt_info, with the height for the level *)
Record xllt := mkLlt { l_table : N; l_base_va : N; l_height : nat }.

(** xlat_tables_utils.c:320-338: the loop of find_xlat_last_table *)
Fixpoint last_table (A : xarch) (mem : N -> N) (h : nat) (va_off table base_va : N) : xllt :=
  let idx := N.land (N.shiftr va_off (addr_shift h)) 511 in
  let desc := mem (entry_addr table idx) in
  match h with
  | O => mkLlt table base_va h
  | S h' =>
      if negb (N.land desc DESC_MASK =? TABLE_DESC) then mkLlt table base_va h
      else last_table A mem h' va_off (get_oa A desc) (wrap64 (base_va + block_size h * idx))
  end.

(** xlat_tables_utils.c:284-346 and 458-485: find_xlat_last_table, xlat_get_llt_from_va *)
Definition xlat_get_llt_from_va (A : xarch) (cfg : xcfg) (T : xtbls) (mem : N -> N) (va : N) : xerr + xllt :=
  if va <? c_base_va cfg then inl X_EFAULT
  else
    let off := N.land (va - c_base_va cfg) (not64 4095) in
    if c_va_size cfg <=? off then inl X_EFAULT
    else inr (last_table A mem (c_height cfg) off (t_tables T) (c_base_va cfg)).

(** xlat_tables_utils.c:498-518: xlat_get_tte_ptr; None for NULL *)
Definition xlat_get_tte_ptr (l : xllt) (va : N) : option N :=
  if va <? l_base_va l then None
  else
    let idx := N.shiftr (va - l_base_va l) (addr_shift (l_height l)) mod 2 ^ 32 in
    if idx <? table_entries (l_height l) then Some (entry_addr (l_table l) idx) else None.

(** xlat_tables_utils.c:410-446: xlat_map_memory_page_with_attrs *)
Definition xlat_map_page (A : xarch) (l : xllt) (va pa attrs : N) (mem : N -> N) : xres ((N -> N) * option xerr) :=
  match xlat_get_tte_ptr l va with
  | None => XOk (mem, Some X_EFAULT)
  | Some p =>
      if negb (mem p =? TRANSIENT_DESC) then XOk (mem, Some X_EFAULT)
      else if max_pa A <? pa then XOk (mem, Some X_EFAULT)
      else
        match xlat_desc A attrs (N.land pa (not64 (block_mask (l_height l)))) (l_height l) with
        | None => XPanic
        | Some d => XOk (set_word mem p (N.lor d TRANSIENT_DESC), None)
        end
  end.

(** xlat_tables_utils.c:363-393: xlat_unmap_memory_page; the second component of the
    result is the page address that is invalidated in the TLB of the CPU,
    xlat_tables_arch.c:241-252, if any *)
Definition xlat_unmap_page (l : xllt) (va : N) (mem : N -> N) : (N -> N) * (xerr + N) :=
  match xlat_get_tte_ptr l va with
  | None => (mem, inl X_EFAULT)
  | Some p =>
      if negb (N.land (mem p) (N.lor TRANSIENT_DESC VALID_DESC) =? N.lor TRANSIENT_DESC VALID_DESC)
      then (mem, inl X_EFAULT)
      else (set_word mem p TRANSIENT_DESC, inr (N.land (N.shiftr va 12) (N.ones 44)))
  end.

(* ------------------------------------------------------------------ *)
(** * The upper addresses of a CPU and the slot buffers *)

(** lib/xlat/include/xlat_high_va.h:13-35.  [pages] is RMM_NUM_PAGES_PER_STACK. *)
Definition SLOT_NUM : N := 108.
Definition SLOT_VIRT : N := 2 ^ 64 - SLOT_NUM * 4096.
Definition CPU_STACK_VIRT (pages : N) : N := SLOT_VIRT - 4096 - pages * 4096.
Definition CPU_EH_STACK_VIRT (pages : N) : N := CPU_STACK_VIRT pages - 4096 - 4096.
Definition HIGH_VA_SIZE : N := 512 * 4096.

(** xlat_high_va.c:23-42, 112-118: the regions of a CPU whose stacks end at [eh_top]
    and [stack_top] *)
Definition high_regions (pages eh_top stack_top : N) : list mmap_region :=
  [mkMm (wrap64 (eh_top + 2 ^ 64 - 4096)) (CPU_EH_STACK_VIRT pages) 4096 XLAT_NG_DATA_ATTR 4096;
   mkMm (wrap64 (stack_top + 2 ^ 64 - pages * 4096)) (CPU_STACK_VIRT pages) (pages * 4096) XLAT_NG_DATA_ATTR 4096;
   mkMm 0 SLOT_VIRT (SLOT_NUM * 4096) MT_TRANSIENT 4096].

(** xlat_high_va.c:93-140: xlat_high_va_setup on the first boot of a CPU, whose table
    is at [table] *)
Definition high_va_setup (A : xarch) (pages eh_top stack_top table : N) (mem : N -> N)
    : xres (xerr + (xcfg * xst * option xmmu)) :=
  match snd (xlat_ctx_cfg_init A false HighRegion (high_regions pages eh_top stack_top) HIGH_VA_SIZE) with
  | inl e => XOk (inl e)
  | inr cfg =>
      match xlat_ctx_init A false cfg (mkTbls table 1) mem with
      | XPanic => XPanic
      | XOk (inl e) => XOk (inl e)
      | XOk (inr st) => XOk (inr (cfg, st, setup_mmu_cfg A cfg (mkTbls table 1)))
      end
  end.

(** lib/slot_buf/src/buffer.c:27-33: slot_to_va.  [nslots] is NR_CPU_SLOTS. *)
Definition slot_va (slot : N) : N := SLOT_VIRT + 4096 * slot.

(** buffer.c:64-81: slot_buf_finish_warmboot_init *)
Definition slot_llt (A : xarch) (cfg : xcfg) (table : N) (mem : N -> N) : xerr + xllt :=
  xlat_get_llt_from_va A cfg (mkTbls table 1) mem (slot_va 0).

(** buffer.c:319-341: buffer_map_internal; slot 0 is SLOT_NS.  The result is the
    address of the slot, None for NULL *)
Definition buffer_map (A : xarch) (nslots : N) (l : xllt) (slot addr : N) (mem : N -> N) : xres ((N -> N) * option N) :=
  if negb (slot <? nslots) then XPanic
  else if negb (addr mod 4096 =? 0) then XPanic
  else
    let attr := N.lor XLAT_NG_DATA_ATTR (if slot =? 0 then MT_NS else 0) in
    match xlat_map_page A l (slot_va slot) addr attr mem with
    | XPanic => XPanic
    | XOk (mem, None) => XOk (mem, Some (slot_va slot))
    | XOk (mem, Some _) => XOk (mem, None)
    end.

(** buffer.c:344-350: buffer_unmap_internal *)
Definition buffer_unmap (l : xllt) (buf : N) (mem : N -> N) : xres ((N -> N) * N) :=
  match xlat_unmap_page l buf mem with
  | (mem, inr t) => XOk (mem, t)
  | (_, inl _) => XPanic
  end.

(** buffer.c:87-96: check_cpu_slots_empty, the loop from slot [i] on for [n] slots;
    None when a slot has no entry *)
Fixpoint slots_empty (l : xllt) (n : nat) (i : N) (mem : N -> N) : option bool :=
  match n with
  | O => Some true
  | S n =>
      match xlat_get_tte_ptr l (slot_va i) with
      | None => None
      | Some p => if negb (mem p =? TRANSIENT_DESC) then Some false else slots_empty l n (i + 1) mem
      end
  end.
