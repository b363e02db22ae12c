(** Stage 1 address translation of the Arm architecture with 4 KB pages, and what a
    list of memory regions asks of it: independent of the code that builds tables. *)
From Coq Require Import NArith ZArith List Bool.
From Verif Require Import Xlat.
Import ListNotations.
Local Open Scope N_scope.

(** What the memory behind an address may be used for *)
Record s1_perm := mkPerm {
  p_write : bool;    (** writable *)
  p_user : bool;     (** accessible at EL0 *)
  p_pexec : bool;    (** executable at EL2 *)
  p_uexec : bool;    (** executable at EL0 *)
  p_ns : bool;       (** in the non-secure address space, else that of the realm world *)
  p_device : bool;   (** MAIR index 1: device memory, else normal memory *)
  p_global : bool    (** the translation is not tagged with an ASID *)
}.

(** Fields of block and page descriptors *)
Definition perm_of_desc (d : N) : s1_perm :=
  mkPerm (negb (N.testbit d 7)) (N.testbit d 6) (negb (N.testbit d 53)) (negb (N.testbit d 54))
         (N.testbit d 5) (d / 4 mod 8 =? 1) (negb (N.testbit d 11)).
(** The address in a descriptor: bits 47 to 12, or with 52-bit addresses bits 49 to 12
    and, for bits 51 and 50, bits 9 and 8 *)
Definition desc_addr (lpa2 : bool) (d : N) : N :=
  if lpa2 then d / 2 ^ 12 mod 2 ^ 38 * 2 ^ 12 + d / 2 ^ 8 mod 4 * 2 ^ 50
  else d / 2 ^ 12 mod 2 ^ 36 * 2 ^ 12.

(** The size of what an entry translates at [h] levels above the last one *)
Definition span_of (h : nat) : N := 2 ^ (12 + 9 * N.of_nat h).

(** Blocks exist one or two levels above the last one, three with 52-bit addresses *)
Definition block_allowed (lpa2 : bool) (h : nat) : bool :=
  match h with O => false | 1%nat | 2%nat => true | 3%nat => lpa2 | _ => false end.

(** The walk: the physical address and the permissions, None for a fault (not mapped,
    or the access flag is clear) *)
Fixpoint s1_walk (lpa2 : bool) (mem : N -> N) (h : nat) (table va : N) : option (N * s1_perm) :=
  let d := mem (table + 8 * (va / span_of h mod 512)) in
  let leaf := if N.testbit d 10
              then Some (desc_addr lpa2 d / span_of h * span_of h + va mod span_of h, perm_of_desc d)
              else None in
  if N.testbit d 0 then
    if N.testbit d 1 then
      match h with O => leaf | S h => s1_walk lpa2 mem h (desc_addr lpa2 d) va end
    else if block_allowed lpa2 h then leaf else None
  else None.

(** The MMU with TTBR and TxSZ of one half of the addresses: 64-TxSZ bits are
    translated, all bits above have to be 0 in the lower and 1 in the upper half *)
Definition s1_translate (lpa2 : bool) (mu : xmmu) (mem : N -> N) (va : N) : option (N * s1_perm) :=
  let w := 64 - mu_txsz mu in
  let base := mu_ttbr mu / 2 ^ 12 mod 2 ^ 36 * 2 ^ 12 + (if lpa2 then mu_ttbr mu / 4 mod 16 * 2 ^ 48 else 0) in
  if match mu_region mu with LowRegion => va <? 2 ^ w | HighRegion => 2 ^ 64 - 2 ^ w <=? va end
  then s1_walk lpa2 mem (N.to_nat ((w - 13) / 9)) base (va mod 2 ^ w)
  else None.

(** The permissions that the attributes of a region ask for *)
Definition perm_of_attr (a : N) : s1_perm :=
  let device := a mod 16 =? 0 in
  mkPerm (N.testbit a 4) (N.testbit a 9)
         (negb device && negb (N.testbit a 4) && negb (N.testbit a 5)) (N.testbit a 10)
         (N.testbit a 8) device (negb (N.testbit a 7)).

Definition in_region (r : mmap_region) (va : N) : bool := (mm_va r <=? va) && (va <? mm_va r + mm_size r).
(** What a list of regions asks for at an address: transient regions are not mapped yet *)
Definition s1_expect (l : list mmap_region) (va : N) : option (N * s1_perm) :=
  match find (fun r => in_region r va) l with
  | Some r => if mm_attr r mod 16 =? 3 then None
              else Some (mm_pa r + (va - mm_va r), perm_of_attr (mm_attr r))
  | None => None
  end.

(** The fields of a region are 64-bit words *)
Definition region64 (r : mmap_region) : Prop := mm_pa r < 2 ^ 64 /\ mm_va r < 2 ^ 64 /\ mm_size r < 2 ^ 64.

(** A table that [h] levels above the last one describes the addresses from [v] on has
    something to describe *)
Definition table_useful (l : list mmap_region) (h : nat) (v : N) : Prop :=
  v mod span_of (S h) = 0 /\ exists r, In r l /\ v < mm_va r + mm_size r /\ mm_va r < v + span_of (S h).

(** A physical address of a region that is mapped from the start *)
Definition backs (r : mmap_region) (pa : N) : Prop :=
  mm_attr r mod 16 <> 3 /\ mm_pa r <= pa < mm_pa r + mm_size r.

(** The address is in a region that is mapped on demand *)
Definition transient_at (l : list mmap_region) (va : N) : bool :=
  match find (fun r => in_region r va) l with Some r => mm_attr r mod 16 =? 3 | None => false end.

(** An address that a function may be given together with the last-level table [l]:
    the distance to the start of the table is less than 2^32 entries *)
Definition near (l : xllt) (va : N) : Prop := va < l_base_va l + 2 ^ 32 * span_of (l_height l).

(** The memories that can be reached from [m0] by mapping and unmapping pages *)
Inductive xdyn (A : xarch) (cfg : xcfg) (T : xtbls) (m0 : N -> N) : (N -> N) -> Prop :=
| xd_start : xdyn A cfg T m0 m0
| xd_map : forall ml va0 l va pa attrs m m' r, xdyn A cfg T m0 ml -> va0 < 2 ^ 64 -> xlat_get_llt_from_va A cfg T ml va0 = inr l ->
    xdyn A cfg T m0 m -> near l va -> xlat_map_page A l va pa attrs m = XOk (m', r) -> xdyn A cfg T m0 m'
| xd_unmap : forall ml va0 l va m m' r, xdyn A cfg T m0 ml -> va0 < 2 ^ 64 -> xlat_get_llt_from_va A cfg T ml va0 = inr l ->
    xdyn A cfg T m0 m -> near l va -> xlat_unmap_page l va m = (m', r) -> xdyn A cfg T m0 m'.
