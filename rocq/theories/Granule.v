(** Model of lib/granule (granule.h, granule.c), of the slot buffers as used by
    the commands (lib/slot_buf) and of the stage 2 table walk (lib/s2tt).

    A pointer to a granule descriptor is the physical address of the granule:
    the descriptor array is indexed by plat_granule_addr_to_idx, which is
    injective on the addresses it accepts (Plat.v). *)
From Coq Require Import NArith ZArith List Bool.
From Verif Require Import Bits S2tte State.
Import ListNotations.
Local Open Scope N_scope.

(** granule_types.h:21-53: the width of the reference count field is 10 *)
Definition REFCOUNT_MAX : N := 1023.

(** lib/slot_buf/include/buffer.h:14-43, with MAX_REC_AUX_GRANULES = 16 *)
Definition SLOT_NS : N := 0.
Definition SLOT_DELEGATED : N := 1.
Definition SLOT_RD : N := 2.
Definition SLOT_REC : N := 3.
Definition SLOT_REC2 : N := 4.
Definition SLOT_REC_AUX0 : N := 6.
Definition MAX_REC_AUX_GRANULES : N := 16.
Definition SLOT_RTT : N := 22.
Definition SLOT_RTT2 : N := 23.
Definition SLOT_RSI_CALL : N := 92.   (* 25 + 32 + 1 + 32 + ... ; only distinct from the others matters *)

Definition is_aligned_granule (a : N) : bool := a mod 4096 =? 0.

(** granule.h:71-118 *)
Definition unlocked_inv (st : gstate) (ref : N) : bool :=
  match st with
  | NS | DELEGATED | DATA | REC_AUX | PDEV_AUX | VDEV_AUX => ref =? 0
  | RD => true
  | REC | PDEV | VDEV => ref <=? 1
  | RTT => ref <=? 512
  end.
Definition assert_unlocked_invariants (g : N) (st : gstate) : prog unit :=
  r <- rd_ref g ;; assert_ (unlocked_inv st r).

(** granule.h:134-140 *)
Definition granule_get_state (g : N) : prog gstate := assert_locked g ;;; rd_state_ g.
(** granule.h:143-160; the exclusive-or of the old and the new state into the
    descriptor is modelled at the bit level in Descriptor.v *)
Definition granule_set_state (g : N) (st : gstate) : prog unit := assert_locked g ;;; wr_state g st.

(** granule.h:167-179 *)
Definition granule_lock_on_state_match (g : N) (expected : gstate) : prog bool :=
  lock_ g ;;;
  st <- granule_get_state g ;;
  if negb (gstate_eqb st expected) then unlock_ g ;;; Ret false
  else assert_unlocked_invariants g expected ;;; Ret true.

(** granule.h:185-191 *)
Definition granule_lock (g : N) (expected : gstate) : prog unit :=
  b <- granule_lock_on_state_match g expected ;; assert_ b.

(** granule.h:193-197 *)
Definition granule_unlock (g : N) : prog unit :=
  st <- granule_get_state g ;; assert_unlocked_invariants g st ;;; unlock_ g.

(** granule.h:200-205 *)
Definition granule_unlock_transition (g : N) (st : gstate) : prog unit :=
  granule_set_state g st ;;; granule_unlock g.

(** granule.h:234-251 *)
Definition granule_refcount_inc (g val : N) : prog unit :=
  assert_locked g ;;; old <- add_ref g (Z.of_N val) ;; assert_ (old + val <=? REFCOUNT_MAX).
Definition atomic_granule_get (g : N) : prog unit := granule_refcount_inc g 1.

(** granule.h:258-278 *)
Definition granule_refcount_dec (g val : N) : prog unit :=
  assert_locked g ;;; old <- add_ref g (- Z.of_N val)%Z ;; assert_ (val <=? old).
Definition atomic_granule_put (g : N) : prog unit := granule_refcount_dec g 1.

(** granule.h:284-292 *)
Definition atomic_granule_put_release (g : N) : prog unit :=
  old <- add_ref g (-1)%Z ;; assert_ (negb (old =? 0)).

(** granule.h:52-56 *)
Definition granule_refcount_read_acquire (g : N) : prog N := assert_locked g ;;; rd_ref g.

(** granule.c:83-98 *)
Definition find_granule (c : cfg) (addr : N) : bool := is_aligned_granule addr && c_gran c addr.

(** granule.c:59-67 *)
Definition addr_to_granule (c : cfg) (addr : N) : prog N :=
  assert_ (is_aligned_granule addr) ;;; assert_ (c_gran c addr) ;;; Ret addr.

(** granule.c:112-126 *)
Definition find_lock_granule (c : cfg) (addr : N) (expected : gstate) : prog bool :=
  if find_granule c addr then granule_lock_on_state_match addr expected else Ret false.

(** granule.h:309-329.  0, -EINVAL and -EBUSY. *)
Inductive find_unused := FOk | FInval | FBusy.
Definition find_lock_unused_granule (c : cfg) (addr : N) (expected : gstate) : prog find_unused :=
  ok <- find_lock_granule c addr expected ;;
  if negb ok then Ret FInval
  else
    r <- granule_refcount_read_acquire addr ;;
    if negb (r =? 0) then granule_unlock addr ;;; Ret FBusy else Ret FOk.

(** granule.c:138-152, insertion sort by address; equal addresses keep their order *)
Fixpoint insert_gs (x : N * gstate) (l : list (N * gstate)) : list (N * gstate) :=
  match l with
  | [] => [x]
  | y :: l' => if fst x <? fst y then x :: l else y :: insert_gs x l'
  end.
Definition sort_granules (l : list (N * gstate)) : list (N * gstate) :=
  fold_left (fun acc x => insert_gs x acc) l [].

(** granule.c:207-210 *)
Fixpoint unlock_all (l : list N) : prog unit :=
  match l with
  | [] => Ret tt
  | g :: l' => granule_unlock g ;;; unlock_all l'
  end.

(** granule.c:188-213; [locked] holds the granules already locked, last one first *)
Fixpoint find_lock_loop (c : cfg) (locked : list N) (l : list (N * gstate)) : prog bool :=
  match l with
  | [] => Ret true
  | (a, st) :: l' =>
      if (match locked with [] => false | p :: _ => a =? p end) then unlock_all locked ;;; Ret false
      else
        ok <- find_lock_granule c a st ;;
        if ok then find_lock_loop c (a :: locked) l' else unlock_all locked ;;; Ret false
  end.

(** granule.c:182-213 *)
Definition find_lock_granules (c : cfg) (l : list (N * gstate)) : prog bool :=
  find_lock_loop c [] (sort_granules l).

(** granule.c:220-236 *)
Definition find_lock_two_granules (c : cfg) (a1 : N) (st1 : gstate) (a2 : N) (st2 : gstate) : prog bool :=
  find_lock_granules c [(a1, st1); (a2, st2)].

(** lib/slot_buf/src/buffer.c:285-297 and granule.c:238-265.  The loop of DC ZVA
    instructions clears the whole granule. *)
Definition granule_memzero_mapped (g : N) : prog unit := wr_mem g czero.
Definition buffer_granule_memzero (g slot : N) : prog unit :=
  map_slot slot ;;; granule_memzero_mapped g ;;; unmap_slot slot.

(** Access to the structures kept in granules.  A granule that is all zero can
    be read as either of them; reading anything else as one would be type
    confusion and is a panic. *)
Definition as_rd (m : content) : option rdesc :=
  match m with
  | CRd r => Some r
  | CW f => if all_zero f then Some rd_zero else None
  | CRec _ => None
  end.
Definition as_rec (m : content) : option recd :=
  match m with
  | CRec r => Some r
  | CW f => if all_zero f then Some rec_zero else None
  | CRd _ => None
  end.
Definition get_rd (g : N) : prog rdesc :=
  m <- rd_mem g ;; match as_rd m with Some r => Ret r | None => Panic end.
Definition put_rd (g : N) (r : rdesc) : prog unit := wr_mem g (CRd r).
Definition get_rec (g : N) : prog recd :=
  m <- rd_mem g ;; match as_rec m with Some r => Ret r | None => Panic end.
Definition put_rec (g : N) (r : recd) : prog unit := wr_mem g (CRec r).

(** The 512 words of a table *)
Definition get_table (g : N) : prog table :=
  m <- rd_mem g ;; match m with CW f => Ret f | _ => Panic end.

(** ns_buffer_read, buffer.c:169-198: the copy either succeeds or faults *)
Definition ns_buffer_access (ok : bool) : prog bool := map_slot SLOT_NS ;;; unmap_slot SLOT_NS ;;; Ret ok.

(* ------------------------------------------------------------------ *)
(** * Table walk *)

Definition min_starting_level (lpa2 : bool) : Z :=
  if lpa2 then S2TT_MIN_STARTING_LEVEL_LPA2 else S2TT_MIN_STARTING_LEVEL.

(** s2tt.c:1031-1056 with its assertions *)
Definition s2tte_pa_ (x : s2ctx) (w : N) (level : Z) : prog N :=
  assert_ ((min_starting_level (enable_lpa2 x) <=? level)%Z && (level <=? S2TT_PAGE_LEVEL)%Z &&
           s2tte_has_pa w level) ;;;
  Ret (s2tte_pa (enable_lpa2 x) w level).

(** s2tt.c:1058-1075 with its assertions *)
Definition addr_lvl_aligned_ (x : s2ctx) (addr : N) (level : Z) : prog bool :=
  assert_ ((min_starting_level (enable_lpa2 x) <=? level)%Z && (level <=? S2TT_PAGE_LEVEL)%Z) ;;;
  Ret (s2tte_is_addr_lvl_aligned (enable_lpa2 x) addr level).

(** s2tt.c:234-249 *)
Definition table_get_entry (g idx : N) : prog N :=
  map_slot SLOT_RTT ;;; w <- rd_word g idx ;; unmap_slot SLOT_RTT ;;; Ret w.

(** s2tt.c:254-282; [None] is the null pointer *)
Definition find_lock_next_level (c : cfg) (x : s2ctx) (g map_addr : N) (level : Z) : prog (option N) :=
  w <- table_get_entry g (s2_addr_to_idx map_addr level) ;;
  if negb (entry_is_table w) then Ret None
  else
    g' <- addr_to_granule c (table_entry_to_phys w (enable_lpa2 x)) ;;
    granule_lock g' RTT ;;;
    Ret (Some g').

(** s2tt.h, struct s2tt_walk *)
Record walk := mkWalk { w_llt : N; w_index : N; w_level : Z }.

(** s2tt.c:354-379; the first argument is the number of levels left *)
Fixpoint walk_loop (fuel : nat) (c : cfg) (x : s2ctx) (map_addr g : N) (i : Z) : prog walk :=
  match fuel with
  | O => Ret (mkWalk g (s2_addr_to_idx map_addr i) i)
  | S f =>
      n <- find_lock_next_level c x g map_addr i ;;
      match n with
      | None => Ret (mkWalk g (s2_addr_to_idx map_addr i) i)
      | Some g' => granule_unlock g ;;; walk_loop f c x map_addr g' (i + 1)
      end
  end.

(** s2tt.c:308-380.  Adding to the descriptor pointer is adding granules to the
    address: find_lock_rd_granules locked the tables of the starting level by
    address, and neighbouring granules have neighbouring descriptors (Plat.v). *)
Definition s2tt_walk_lock_unlock (c : cfg) (x : s2ctx) (map_addr : N) (level : Z) : prog walk :=
  assert_ (s2_sl x <=? level)%Z ;;;
  assert_ (level <=? S2TT_PAGE_LEVEL)%Z ;;;
  assert_ (map_addr <? 2 ^ ipa_bits x) ;;;
  assert_ (ipa_bits x <=? (if enable_lpa2 x then S2TTE_OA_BITS_LPA2 else S2TTE_OA_BITS)) ;;;
  let g_root := g_rtt x in
  let sl_idx := s2_sl_addr_to_idx map_addr (s2_sl x) (ipa_bits x) in
  g_root <-
    (if S2TTES_PER_S2TT <=? sl_idx then
       let tt_num := N.shiftr sl_idx S2TTE_STRIDE in
       assert_ (tt_num <? num_root_rtts x) ;;;
       let g_concat := g_root + tt_num * GRANULE_SIZE in
       granule_lock g_concat RTT ;;;
       granule_unlock g_root ;;;
       Ret g_concat
     else Ret g_root) ;;
  walk_loop (Z.to_nat (level - s2_sl x)) c x map_addr g_root (s2_sl x).

(* ------------------------------------------------------------------ *)
(** * Results of commands *)

(** lib/smc/include/smc.h, struct smc_result; the caller clears it *)
Record res := mkRes { x0 : N; x1 : N; x2 : N; x3 : N; x4 : N }.
Definition res0 (code : N) : res := mkRes code 0 0 0 0.

(** lib/smc/include/smc-rmi.h:15-70 *)
Definition RMI_SUCCESS : N := 0.
Definition RMI_ERROR_INPUT : N := 1.
Definition RMI_ERROR_REALM : N := 2.
Definition RMI_ERROR_REC : N := 3.
Definition RMI_ERROR_RTT : N := 4.

(** lib/common/include/status.h:42-58; [index] is truncated to 8 bits *)
Definition pack_return_code (status : N) (index : Z) : N :=
  N.lor status (N.shiftl (Z.to_N (index mod 256)) 8).

(** Conversion of a register to [long] *)
Definition sgn64 (v : N) : Z :=
  if v <? 2 ^ 63 then Z.of_N v else (Z.of_N v - 2 ^ 64)%Z.

(** runtime/include/realm.h:118-205 *)
Definition realm_ipa_size (r : rdesc) : N := 2 ^ ipa_bits (rd_ctx r).
Definition realm_par_size (r : rdesc) : N := N.shiftr (realm_ipa_size r) 1.
Definition addr_in_par (r : rdesc) (a : N) : bool := a <? realm_par_size r.
