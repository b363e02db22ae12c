(** Architecture specification: the stage 2 walk of an Armv8-A/v9-A PE, from
    VTTBR_EL2 and VTCR_EL2 to the output address.  Nothing here models code of
    the monitor; it follows the Arm ARM (DDI 0487), sections D8.2, D8.3 and the
    descriptions of VTTBR_EL2 and VTCR_EL2, for the 4KB granule. *)
From Coq Require Import NArith ZArith Bool.
From Verif Require Import Arch.
Local Open Scope N_scope.

(** VTCR_EL2.T0SZ: the input addresses have 64 - T0SZ bits *)
Definition vtcr_ipa_bits (vtcr : N) : N := 64 - bits vtcr 5 0.
(** VTCR_EL2.DS: 52-bit descriptors *)
Definition vtcr_ds (vtcr : N) : bool := N.testbit vtcr 32.
(** VTCR_EL2.SL0 and SL2: the level the walk starts at *)
Definition vtcr_start_level (vtcr : N) : Z :=
  match bits vtcr 7 6 with
  | 0 => if vtcr_ds vtcr && N.testbit vtcr 33 then (-1)%Z else 2%Z
  | 1 => 1%Z
  | 2 => 0%Z
  | _ => 3%Z
  end.
(** VTTBR_EL2.VMID: 16 bits when VTCR_EL2.VS is set, else 8 *)
Definition vttbr_vmid (vttbr vtcr : N) : N :=
  if N.testbit vtcr 19 then bits vttbr 63 48 else bits vttbr 55 48.
(** VTTBR_EL2.BADDR: the start of the first table.  The hardware takes the table
    to be aligned to its size (concatenated tables are one table), and to 64
    bytes when addresses have 52 bits, in which case bits [51:48] are in [5:2]. *)
Definition vttbr_align (vtcr : N) : N :=
  let x := vtcr_ipa_bits vtcr - arch_lsb (vtcr_start_level vtcr) + 3 in
  if vtcr_ds vtcr then N.max 6 x else x.
Definition vttbr_base (vttbr vtcr : N) : N :=
  let x := vttbr_align vtcr in
  (if vtcr_ds vtcr then bits vttbr 5 2 * 2 ^ 48 else 0) + bits vttbr 47 x * 2 ^ x.

(** Result of a walk: the level and the word of the leaf descriptor, the output
    address, whether the access is made in the non-secure address space, and
    whether execution is forbidden *)
Inductive xlat := XFault | XOk (level : Z) (word oa : N) (ns xn : bool).

(** [rdw] reads a descriptor from physical memory; it yields [None] when the
    access aborts. *)
Fixpoint arch_walk (fuel : nat) (rdw : N -> option N) (ds : bool) (level : Z) (daddr ipa : N) : xlat :=
  match rdw daddr with
  | None => XFault
  | Some w =>
    match arch_decode ds level w with
    | AInvalid => XFault
    | ALeaf oa ns xn => XOk level w (oa + ipa mod 2 ^ arch_lsb level) ns xn
    | ATable next =>
      match fuel with
      | O => XFault
      | S n => arch_walk n rdw ds (level + 1) (next + 8 * ((ipa / 2 ^ arch_lsb (level + 1)) mod 512)) ipa
      end
    end
  end.

Definition stage2 (rdw : N -> option N) (vttbr vtcr ipa : N) : xlat :=
  if ipa <? 2 ^ vtcr_ipa_bits vtcr then
    let l := vtcr_start_level vtcr in
    arch_walk 4 rdw (vtcr_ds vtcr) l (vttbr_base vttbr vtcr + 8 * (ipa / 2 ^ arch_lsb l)) ipa
  else XFault.
