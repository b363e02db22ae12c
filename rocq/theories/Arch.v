(** Architecture specification: how the MMU of an Armv8-A/v9-A PE reads a
    VMSAv8-64 stage 2 translation table, 4KB granule.  Nothing here models code
    of the monitor; it follows the Arm ARM (DDI 0487), sections D8.2 and D8.3,
    and is written with division and remainder instead of the masks the monitor
    uses. *)
From Coq Require Import NArith ZArith Bool.
Local Open Scope N_scope.

(** Bits [hi:lo] of a register or descriptor. *)
Definition bits (w hi lo : N) : N := (w / 2 ^ lo) mod 2 ^ (hi - lo + 1).

(** Number of the least significant address bit resolved at a lookup level. *)
Definition arch_lsb (level : Z) : N :=
  match level with
  | 3%Z => 12 | 2%Z => 21 | 1%Z => 30 | 0%Z => 39 | _ => 48
  end.

(** A stage 2 descriptor as the MMU sees it. *)
Inductive adesc :=
| AInvalid
| ATable (next : N)
| ALeaf (oa : N) (ns xn : bool).

(** Output address of a descriptor with [lsb] low bits to be taken from the
    input address: bits [47:lsb], and with 52-bit descriptors (DS = 1) bits
    [49:lsb] with address bits [51:50] in descriptor bits [9:8]. *)
Definition arch_oa (ds : bool) (lsb w : N) : N :=
  if ds then bits w 9 8 * 2 ^ 50 + bits w 49 lsb * 2 ^ lsb
  else bits w 47 lsb * 2 ^ lsb.

(** Decoding of the descriptor [w] found at [level]. Bit 0 is the valid bit; bit 1
    tells tables (levels before 3) and pages (level 3) from blocks.  Blocks
    exist at levels 1 and 2, and at level 0 with 52-bit descriptors only.  Bit
    55 is NS; bits [54:53] are XN (the monitor only uses 0b10: no execution at
    EL1 and EL0). *)
Definition arch_decode (ds : bool) (level : Z) (w : N) : adesc :=
  if negb (N.odd w) then AInvalid
  else
    let leaf := ALeaf (arch_oa ds (arch_lsb level) w) (N.testbit w 55) (bits w 54 53 =? 2) in
    if (level =? 3)%Z then (if N.testbit w 1 then leaf else AInvalid)
    else if N.testbit w 1 then ATable (arch_oa ds 12 w)
    else if (1 <=? level)%Z || ((level =? 0)%Z && ds) then leaf
    else AInvalid.
