(** Vocabulary for C39, C40 and C49, written from the Arm architecture and the
    interrupt controller specification, not from the code. *)
From Coq Require Import NArith ZArith List Bool.
Import ListNotations.
Local Open Scope N_scope.

(** The [width] bits of [x] from bit [low] *)
Definition field (x low width : N) : N := (x / 2 ^ low) mod 2 ^ width.

(* ------------------------------------------------------------------ *)
(** * C39: list registers of the virtual interrupt controller *)

(** ICH_VTR_EL2: number of list registers, priority bits and width of the
    interrupt identifiers *)
Definition vtr_list_regs (vtr : N) : N := field vtr 0 5 + 1.
Definition vtr_pri_bits (vtr : N) : N := field vtr 29 3 + 1.
Definition vtr_id_bits (vtr : N) : N := if field vtr 23 3 =? 0 then 16 else 24.

(** ICH_LR<n>_EL2: State [63:62], HW [61], Priority [55:48], pINTID [44:32] whose
    bit 41 requests a maintenance interrupt when HW is 0, vINTID [31:0] *)
Definition lr_empty (lr : N) : Prop := field lr 62 2 = 0.
Definition vintid (lr : N) : N := field lr 0 32.

(** Interrupts a realm can be given: SGIs, PPIs and SPIs, LPIs, and the extended
    ranges when they are implemented *)
Definition intid_ok (vtr : N) (ext : bool) (n : N) : Prop :=
  n < 1020 \/ (8192 <= n /\ n < 2 ^ vtr_id_bits vtr) \/
  (ext = true /\ ((1056 <= n /\ n < 1120) \/ (4096 <= n /\ n < 5120))).

(** The priority has only implemented bits: the low ones are zero *)
Definition priority_ok (vtr lr : N) : Prop := field lr 48 8 mod 2 ^ (8 - vtr_pri_bits vtr) = 0.

Definition lr_ok (vtr : N) (ext : bool) (lr : N) : Prop :=
  field lr 61 1 = 0 /\ priority_ok vtr lr /\
  field lr 32 9 = 0 /\ field lr 42 3 = 0 /\ intid_ok vtr ext (vintid lr).

(** ICH_HCR_EL2: the host may set UIE, LRENPIE, NPIE, VGrp0EIE, VGrp0DIE,
    VGrp1EIE, VGrp1DIE and TDIR *)
Definition hcr_ok (hcr : N) : Prop := forall b, N.testbit hcr b = true -> In b [1; 2; 3; 4; 5; 6; 7; 14].

Definition gic_entry_ok (vtr : N) (ext : bool) (hcr : N) (lrs : N -> N) : Prop :=
  hcr_ok hcr /\
  (forall i, i < vtr_list_regs vtr -> lr_empty (lrs i) \/ lr_ok vtr ext (lrs i)) /\
  (forall i j, i < j -> j < vtr_list_regs vtr -> ~ lr_empty (lrs i) -> ~ lr_empty (lrs j) ->
     vintid (lrs i) <> vintid (lrs j)).

(* ------------------------------------------------------------------ *)
(** * C40: the value of an emulated load *)

(** ESR_EL2 of a data abort: SAS [23:22], SSE [21], SRT [20:16], SF [15], WnR [6] *)
Definition acc_bits (esr : N) : Z := (8 * 2 ^ Z.of_N (field esr 22 2))%Z.
Definition signed (w : Z) (v : Z) : Z := if (v <? 2 ^ (w - 1))%Z then v else (v - 2 ^ w)%Z.

(** The low part of what the host supplies, extended to the register *)
Definition load_value (esr value : N) : Z :=
  let w := acc_bits esr in
  let v := (Z.of_N value mod 2 ^ w)%Z in
  if field esr 21 1 =? 0 then v
  else (signed w v mod 2 ^ (if (field esr 15 1 =? 0)%N then 32 else 64))%Z.

(* ------------------------------------------------------------------ *)
(** * C49: taking an exception to EL1 *)

(** PSTATE as an SPSR: M [3:0], nRW [4], F [6], I [7], A [8], D [9] *)
Definition from_el0 (spsr : N) : bool := field spsr 0 4 =? 0.
Definition aarch32 (spsr : N) : bool := negb (field spsr 4 1 =? 0).
Definition realm_mode (spsr : N) : Prop := In (field spsr 0 4) [0; 4; 5].

(** The vector of a synchronous exception, and of an SError *)
Definition vector_base (spsr : N) : N :=
  if from_el0 spsr then (if aarch32 spsr then 0x600 else 0x400)
  else if field spsr 0 4 =? 4 then 0 else 0x200.
Definition vector_entry (vbar spsr : N) (serror : bool) : N :=
  (vbar + vector_base spsr + (if serror then 0x180 else 0)) mod 2 ^ 64.

(** EL1h with debug exceptions, SErrors, IRQs and FIQs masked, flags clear *)
Definition pstate_el1h : N := 5 + 2 ^ 6 + 2 ^ 7 + 2 ^ 8 + 2 ^ 9.

(** The syndrome of an injected external abort, bit by bit: status [5:0], S1PTW
    [7] clear, EA [9] set, FnV [10] clear, class [31:26] of an abort from the
    exception level that was interrupted, everything else from the original *)
Definition injected_esr (esr spsr fsc e1 : N) : Prop :=
  forall n, N.testbit e1 n =
    if n <? 6 then N.testbit fsc n
    else if n =? 7 then false
    else if n =? 9 then true
    else if n =? 10 then false
    else if (26 <=? n) && (n <? 32) then N.testbit (field esr 26 6 + (if from_el0 spsr then 0 else 1)) (n - 26)
    else N.testbit esr n.
