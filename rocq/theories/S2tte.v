(** Model of the stage 2 translation table entry (S2TTE) codec,
    lib/s2tt/src/s2tt.c and lib/s2tt/src/s2tt_pvt_defs.h.

    Words are [N] below 2^64, levels are [Z] (-1 .. 3).  C assertions on the
    arguments are not part of these functions: the callers in the command
    models check them and yield [Panic] when one would fail. *)
From Coq Require Import NArith ZArith List Bool.
From Verif Require Import Bits.
Local Open Scope N_scope.

(** s2tt.h:17-39, struct s2tt_context; [g_rtt] is the address of the root
    granule instead of a pointer to its descriptor. *)
Record s2ctx := mkCtx {
  ipa_bits : N;
  s2_sl : Z;
  num_root_rtts : N;
  g_rtt : N;
  vmid : N;
  enable_lpa2 : bool
}.

(** ripas.h: enum ripas *)
Inductive ripas := EMPTY | RAM | DESTROYED.

(** s2tt.h:41-68 *)
Definition GRANULE_SHIFT : N := 12.
Definition GRANULE_SIZE : N := 4096.
Definition S2TT_PAGE_LEVEL : Z := 3.
Definition S2TT_MIN_BLOCK_LEVEL : Z := 1.
Definition S2TT_MIN_STARTING_LEVEL : Z := 0.
Definition S2TT_MIN_STARTING_LEVEL_LPA2 : Z := -1.
Definition S2TTE_STRIDE : N := 9.
Definition S2TTE_STRIDE_LM1 : N := 4.
Definition S2TTES_PER_S2TT : N := 512.
Definition S2TTES_PER_S2TT_LM1 : N := 16.

(** s2tt_pvt_defs.h:42-141 *)
Definition S2TTE_INVALID_HIPAS_MASK : N := 28.            (* 7 << 2 *)
Definition S2TTE_INVALID_HIPAS_UNASSIGNED : N := 0.
Definition S2TTE_INVALID_HIPAS_ASSIGNED : N := 4.         (* 1 << 2 *)
Definition S2TTE_INVALID_RIPAS_MASK : N := 96.            (* 3 << 5 *)
Definition S2TTE_INVALID_RIPAS_EMPTY : N := 0.
Definition S2TTE_INVALID_RIPAS_RAM : N := 32.             (* 1 << 5 *)
Definition S2TTE_INVALID_RIPAS_DESTROYED : N := 64.       (* 2 << 5 *)
Definition S2TTE_NS : N := 36028797018963968.             (* 1 << 55 *)
Definition S2TTE_AF : N := 1024.                          (* 1 << 10 *)
Definition S2TTE_XN : N := 18014398509481984.             (* 2 << 53 *)
Definition S2TT_DESC_TYPE_MASK : N := 3.
Definition S2TTE_INVALID : N := 0.
Definition S2TTE_L012_BLOCK : N := 1.
Definition S2TTE_L012_TABLE : N := 3.
Definition S2TTE_L3_PAGE : N := 3.
Definition S2TTE_OA_BITS : N := 48.
Definition S2TTE_OA_BITS_LPA2 : N := 52.
Definition S2TTE_MEMATTR_MASK : N := 28.                  (* 7 << 2 *)
Definition S2TTE_MEMATTR_FWB_NORMAL_WB : N := 24.         (* (1<<4)|(2<<2) *)
Definition S2TTE_MEMATTR_FWB_RESERVED : N := 16.          (* 1<<4 *)
Definition S2TTE_AP_MASK : N := 192.                      (* 3 << 6 *)
Definition S2TTE_AP_RW : N := 192.
Definition S2TTE_SH_IS : N := 768.                        (* 3 << 8 *)
Definition S2TTE_ATTRS_LPA2 : N :=
  N.lor (N.lor S2TTE_MEMATTR_FWB_NORMAL_WB S2TTE_AP_RW) S2TTE_AF.
Definition S2TTE_ATTRS : N := N.lor S2TTE_ATTRS_LPA2 S2TTE_SH_IS.
Definition S2TTE_NS_ATTR_MASK : N := N.lor S2TTE_MEMATTR_MASK S2TTE_AP_MASK.
Definition S2TTE_NS_ATTR_RMM : N := N.lor (N.lor S2TTE_AF S2TTE_NS) S2TTE_XN.
Definition S2TTE_TABLE : N := S2TTE_L012_TABLE.
Definition S2TTE_BLOCK : N := N.lor S2TTE_ATTRS S2TTE_L012_BLOCK.
Definition S2TTE_BLOCK_LPA2 : N := N.lor S2TTE_ATTRS_LPA2 S2TTE_L012_BLOCK.
Definition S2TTE_PAGE : N := N.lor S2TTE_ATTRS S2TTE_L3_PAGE.
Definition S2TTE_PAGE_LPA2 : N := N.lor S2TTE_ATTRS_LPA2 S2TTE_L3_PAGE.
Definition S2TTE_BLOCK_NS : N := N.lor S2TTE_NS_ATTR_RMM S2TTE_L012_BLOCK.
Definition S2TTE_PAGE_NS : N := N.lor S2TTE_NS_ATTR_RMM S2TTE_L3_PAGE.
(** s2tt_pvt_defs.h:84-92 *)
Definition LPA2_OA_51_50 : N := MASK 2 50.
Definition LPA2_OA_49_48 : N := MASK 2 48.
Definition LPA2_S2TTE_51_50 : N := MASK 2 8.

(** Least significant address bit resolved at a level:
    (levels * S2TTE_STRIDE) + GRANULE_SHIFT, e.g. s2tt.c:27-28 *)
Definition lvl_lsb (level : Z) : N := Z.to_N ((3 - level) * 9 + 12).

(** s2tt.h:92-94, s2tte_map_size *)
Definition s2tte_map_size (level : Z) : N := 2 ^ lvl_lsb level.

(** s2tt.c:21-37 *)
Definition s2tte_lvl_mask (level : Z) (lpa2 : bool) : N :=
  let mask := BIT_MASK (S2TTE_OA_BITS - 1) (lvl_lsb level) in
  if lpa2 then N.lor mask (N.lor LPA2_S2TTE_51_50 LPA2_OA_49_48) else mask.

(** s2tt.c:42-52 *)
Definition s2tte_to_pa (s2tte : N) (level : Z) (lpa2 : bool) : N :=
  let pa := N.land s2tte (s2tte_lvl_mask level lpa2) in
  if lpa2 then N.lor (N.ldiff pa LPA2_S2TTE_51_50) (INPLACE 2 50 (EXTRACT 2 8 s2tte))
  else pa.

(** s2tt.c:137-147 *)
Definition pa_to_s2tte (pa : N) (lpa2 : bool) : N :=
  if lpa2 then N.lor (N.ldiff pa LPA2_OA_51_50) (INPLACE 2 8 (EXTRACT 2 50 pa))
  else pa.

(** s2tt.c:192-204 *)
Definition s2_addr_to_idx (addr : N) (level : Z) : N :=
  let stride := if (level <? S2TT_MIN_STARTING_LEVEL)%Z then S2TTE_STRIDE_LM1 else S2TTE_STRIDE in
  N.land (N.shiftr addr (lvl_lsb level)) (2 ^ stride - 1).

(** s2tt.c:216-227 *)
Definition s2_sl_addr_to_idx (addr : N) (start_level : Z) (bits : N) : N :=
  N.shiftr (N.land addr (2 ^ bits - 1)) (lvl_lsb start_level).

(** s2tt.c:229-232 *)
Definition entry_is_table (entry : N) : bool :=
  N.land entry S2TT_DESC_TYPE_MASK =? S2TTE_L012_TABLE.

(** s2tt.c:251-252 *)
Definition table_entry_to_phys (tte : N) (lpa2 : bool) : N :=
  s2tte_to_pa tte S2TT_PAGE_LEVEL lpa2.

(** s2tt.c:385-420 *)
Definition s2tte_create_unassigned_empty : N :=
  N.lor S2TTE_INVALID_HIPAS_UNASSIGNED S2TTE_INVALID_RIPAS_EMPTY.
Definition s2tte_create_unassigned_ram : N :=
  N.lor S2TTE_INVALID_HIPAS_UNASSIGNED S2TTE_INVALID_RIPAS_RAM.
Definition s2tte_create_unassigned_destroyed : N :=
  N.lor S2TTE_INVALID_HIPAS_UNASSIGNED S2TTE_INVALID_RIPAS_DESTROYED.
Definition s2tte_create_unassigned_ns : N :=
  N.lor S2TTE_NS S2TTE_INVALID_HIPAS_UNASSIGNED.

(** s2tt.c:426-456 *)
Definition s2tte_create_assigned (lpa2 : bool) (pa : N) (level : Z) (s2tte_ripas : N) : N :=
  let tte := pa_to_s2tte pa lpa2 in
  let s2tte_page := if lpa2 then S2TTE_PAGE_LPA2 else S2TTE_PAGE in
  let s2tte_block := if lpa2 then S2TTE_BLOCK_LPA2 else S2TTE_BLOCK in
  if s2tte_ripas =? S2TTE_INVALID_RIPAS_RAM then
    if (level =? S2TT_PAGE_LEVEL)%Z then N.lor tte s2tte_page else N.lor tte s2tte_block
  else N.lor (N.lor tte S2TTE_INVALID_HIPAS_ASSIGNED) s2tte_ripas.

(** s2tt.c:462-502 *)
Definition s2tte_create_assigned_destroyed (lpa2 : bool) (pa : N) (level : Z) : N :=
  s2tte_create_assigned lpa2 pa level S2TTE_INVALID_RIPAS_DESTROYED.
Definition s2tte_create_assigned_empty (lpa2 : bool) (pa : N) (level : Z) : N :=
  s2tte_create_assigned lpa2 pa level S2TTE_INVALID_RIPAS_EMPTY.
Definition s2tte_create_assigned_ram (lpa2 : bool) (pa : N) (level : Z) : N :=
  s2tte_create_assigned lpa2 pa level S2TTE_INVALID_RIPAS_RAM.
Definition s2tte_create_assigned_unchanged (lpa2 : bool) (s2tte pa : N) (level : Z) : N :=
  s2tte_create_assigned lpa2 pa level (N.land s2tte S2TTE_INVALID_RIPAS_MASK).

(** s2tt.c:512-536 *)
Definition s2tte_create_assigned_ns (lpa2 : bool) (s2tte : N) (level : Z) : N :=
  let new0 := N.ldiff s2tte S2TT_DESC_TYPE_MASK in
  let new1 := if lpa2 then new0 else N.lor new0 S2TTE_SH_IS in
  if (level =? S2TT_PAGE_LEVEL)%Z then N.lor new1 S2TTE_PAGE_NS else N.lor new1 S2TTE_BLOCK_NS.

(** s2tt.c:541-576.  [N.ldiff s2tte mask] is [s2tte & ~mask]. *)
Definition host_ns_s2tte_is_valid (lpa2 : bool) (s2tte : N) (level : Z) : bool :=
  let mask := N.lor (s2tte_lvl_mask level lpa2) S2TTE_NS_ATTR_MASK in
  if negb (N.ldiff s2tte mask =? 0) then false
  else negb (N.land s2tte S2TTE_MEMATTR_MASK =? S2TTE_MEMATTR_FWB_RESERVED).

(** s2tt.c:581-592 *)
Definition host_ns_s2tte (lpa2 : bool) (s2tte : N) (level : Z) : N :=
  N.land s2tte (N.lor (s2tte_lvl_mask level lpa2) S2TTE_NS_ATTR_MASK).

(** s2tt.c:597-615 *)
Definition s2tte_create_table (lpa2 : bool) (pa : N) : N :=
  N.lor (pa_to_s2tte pa lpa2) S2TTE_TABLE.

(** s2tt.c:790-797 *)
Definition s2tte_is_table (s2tte : N) (level : Z) : bool :=
  (level <? S2TT_PAGE_LEVEL)%Z && (N.land s2tte S2TT_DESC_TYPE_MASK =? S2TTE_L012_TABLE).

(** s2tt.c:626-631 *)
Definition s2tte_has_ripas (s2tte : N) (level : Z) : bool :=
  (N.land s2tte S2TTE_NS =? 0) && negb (s2tte_is_table s2tte level).

(** s2tt.c:636-662 *)
Definition s2tte_has_hipas (s2tte hipas : N) : bool :=
  (N.land s2tte S2TT_DESC_TYPE_MASK =? S2TTE_INVALID) &&
  (N.land s2tte S2TTE_INVALID_HIPAS_MASK =? hipas).
Definition s2tte_has_unassigned_ripas (s2tte rip : N) : bool :=
  (N.land s2tte S2TTE_INVALID_RIPAS_MASK =? rip) && s2tte_has_hipas s2tte S2TTE_INVALID_HIPAS_UNASSIGNED.
Definition s2tte_has_assigned_ripas (s2tte rip : N) : bool :=
  (N.land s2tte S2TTE_INVALID_RIPAS_MASK =? rip) && s2tte_has_hipas s2tte S2TTE_INVALID_HIPAS_ASSIGNED.

(** s2tt.c:667-742 *)
Definition s2tte_is_unassigned (s2tte : N) : bool :=
  s2tte_has_hipas s2tte S2TTE_INVALID_HIPAS_UNASSIGNED.
Definition s2tte_is_unassigned_empty (s2tte : N) : bool :=
  (N.land s2tte S2TTE_NS =? 0) && s2tte_has_unassigned_ripas s2tte S2TTE_INVALID_RIPAS_EMPTY.
Definition s2tte_is_unassigned_ram (s2tte : N) : bool :=
  s2tte_has_unassigned_ripas s2tte S2TTE_INVALID_RIPAS_RAM.
Definition s2tte_is_unassigned_ns (s2tte : N) : bool :=
  negb (N.land s2tte S2TTE_NS =? 0) && s2tte_has_hipas s2tte S2TTE_INVALID_HIPAS_UNASSIGNED.
Definition s2tte_is_unassigned_destroyed (s2tte : N) : bool :=
  s2tte_has_unassigned_ripas s2tte S2TTE_INVALID_RIPAS_DESTROYED.
Definition s2tte_is_assigned_destroyed (s2tte : N) (level : Z) : bool :=
  s2tte_has_assigned_ripas s2tte S2TTE_INVALID_RIPAS_DESTROYED.
Definition s2tte_is_assigned_empty (s2tte : N) (level : Z) : bool :=
  s2tte_has_assigned_ripas s2tte S2TTE_INVALID_RIPAS_EMPTY.

(** s2tt.c:744-785 *)
Definition s2tte_check (s2tte : N) (level : Z) (ns : N) : bool :=
  if negb (N.land s2tte S2TTE_NS =? ns) then false
  else
    let desc_type := N.land s2tte S2TT_DESC_TYPE_MASK in
    if (level =? S2TT_PAGE_LEVEL)%Z then desc_type =? S2TTE_L3_PAGE
    else (S2TT_MIN_BLOCK_LEVEL <=? level)%Z && (desc_type =? S2TTE_L012_BLOCK).
Definition s2tte_is_assigned_ram (s2tte : N) (level : Z) : bool := s2tte_check s2tte level 0.
Definition s2tte_is_assigned_ns (s2tte : N) (level : Z) : bool := s2tte_check s2tte level S2TTE_NS.

(** s2tt.c:805-829.  [None] models the failing assertions. *)
Definition s2tte_get_ripas (s2tte : N) : option ripas :=
  let desc_type := N.land s2tte S2TT_DESC_TYPE_MASK in
  if negb (desc_type =? S2TTE_INVALID) then
    if (desc_type =? S2TTE_L012_BLOCK) || (desc_type =? S2TTE_L3_PAGE) then Some RAM else None
  else if negb (EXTRACT 3 2 s2tte <=? 1) then None
  else
    let r := N.shiftr (N.land s2tte S2TTE_INVALID_RIPAS_MASK) 5 in
    if r =? 0 then Some EMPTY else if r =? 1 then Some RAM else if r =? 2 then Some DESTROYED
    else None.

(** s2tt.c:123-131 and 1024-1028 *)
Definition s2tte_has_pa (s2tte : N) (level : Z) : bool :=
  negb (N.land s2tte S2TT_DESC_TYPE_MASK =? S2TTE_INVALID) ||
  s2tte_is_assigned_empty s2tte level || s2tte_is_assigned_destroyed s2tte level.
Definition s2tte_is_live (s2tte : N) (level : Z) : bool := s2tte_has_pa s2tte level.

(** s2tt.c:1031-1056 *)
Definition s2tte_pa (lpa2 : bool) (s2tte : N) (level : Z) : N :=
  if s2tte_is_table s2tte level then table_entry_to_phys s2tte lpa2
  else s2tte_to_pa s2tte level lpa2.

(** s2tt.c:1058-1075 *)
Definition s2tte_is_addr_lvl_aligned (lpa2 : bool) (addr : N) (level : Z) : bool :=
  let oa_bits := if lpa2 then S2TTE_OA_BITS_LPA2 else S2TTE_OA_BITS in
  addr =? N.land addr (BIT_MASK (oa_bits - 1) (lvl_lsb level)).

(** Tables are functions from the entry index to the word. *)
Definition table := N -> N.

(** Indices 0..511, used by the loops over a table. *)
Definition idx512 : list N := List.map N.of_nat (List.seq 0 512).

(** s2tt.c:837-910: the s2tt_init_unassigned_xxx functions fill the table with one word. *)
Definition s2tt_init_const (w : N) : table := fun _ => w.
(** s2tt.c:919-985: s2tt_init_assigned_{destroyed,empty,ram} *)
Definition s2tt_init_assigned (create : bool -> N -> Z -> N) (lpa2 : bool) (pa : N) (level : Z) : table :=
  fun i => create lpa2 (pa + i * s2tte_map_size level) level.
(** s2tt.c:994-1015 *)
Definition s2tt_init_assigned_ns (lpa2 : bool) (attrs pa : N) (level : Z) : table :=
  fun i => s2tte_create_assigned_ns lpa2
             (N.lor (N.land attrs S2TTE_NS_ATTR_MASK) (pa_to_s2tte (pa + i * s2tte_map_size level) lpa2)) level.

(** s2tt.c:1080-1138 *)
Definition table_is_uniform_block (t : table) (is_x : N -> bool) : bool :=
  forallb (fun i => is_x (t i)) idx512.

(** s2tt.c:1143-1205 *)
Definition table_maps_block (lpa2 : bool) (t : table) (level : Z)
    (is_x : N -> Z -> bool) (check_ns_attrs : bool) : bool :=
  let w0 := t 0 in
  if negb (is_x w0 level) then false
  else
    let base_pa := s2tte_pa lpa2 w0 level in
    if negb (s2tte_is_addr_lvl_aligned lpa2 base_pa (level - 1)) then false
    else
      forallb (fun i =>
        (i =? 0) ||
        (is_x (t i) level &&
         (s2tte_pa lpa2 (t i) level =? base_pa + i * s2tte_map_size level) &&
         (negb check_ns_attrs ||
          (N.land w0 S2TTE_NS_ATTR_MASK =? N.land (t i) S2TTE_NS_ATTR_MASK)))) idx512.

(** s2tt.c:1274-1320; [skip_scan] is the for loop, its first argument bounds
    the number of remaining entries. *)
Fixpoint skip_scan (fuel : nat) (t : table) (level : Z) (i : N) : N :=
  match fuel with
  | O => i
  | S f => if i <? S2TTES_PER_S2TT then
             if s2tte_is_live (t i) level then i else skip_scan f t level (i + 1)
           else i
  end.
Definition s2tt_skip_non_live_entries (addr : N) (t : table) (level : Z) (index : N) : N :=
  if s2tte_is_live (t index) level then addr
  else
    let map_size := s2tte_map_size level in
    let addr0 := N.ldiff addr (map_size - 1) in
    let i := skip_scan 512 t level (index + 1) in
    addr0 + (i - index) * map_size.
