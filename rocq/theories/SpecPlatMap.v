(** What the monitor's memory map has to be, from the addresses of its sections alone. *)
From Coq Require Import NArith List Bool.
From Verif Require Import Xlat SpecXlat PlatMap.
Import ListNotations.
Local Open Scope N_scope.

(** All for EL2 only, in the realm world's address space, and global *)
Definition perm_code : s1_perm := mkPerm false false true false false false true.
Definition perm_ro : s1_perm := mkPerm false false false false false false true.
Definition perm_rw : s1_perm := mkPerm true false false false false false true.
Definition perm_dev : s1_perm := mkPerm true false false false false true true.

(** The image: code is executable and read only, constants are read only, data is writable,
    and one page after a gap of one page is the buffer shared with EL3 *)
Definition image_map (im : image) (shared_pa va : N) : option (N * s1_perm) :=
  if (im_code_start im <=? va) && (va <? im_code_end im) then Some (va, perm_code)
  else if (im_ro_start im <=? va) && (va <? im_ro_end im) then Some (va, perm_ro)
  else if (im_rw_start im <=? va) && (va <? im_rw_end im) then Some (va, perm_rw)
  else if (im_rw_end im + 4096 <=? va) && (va <? im_rw_end im + 8192) then Some (shared_pa + (va - (im_rw_end im + 4096)), perm_rw)
  else None.

(** With a console at [base]: its registers are mapped where they are *)
Definition console_map (im : image) (shared_pa base va : N) : option (N * s1_perm) :=
  if (base <=? va) && (va <? base + 4096) then Some (va, perm_dev) else image_map im shared_pa va.

(** The addresses of the sections are 64-bit words *)
Definition image64 (im : image) : Prop :=
  im_code_start im < 2 ^ 64 /\ im_code_end im < 2 ^ 64 /\ im_ro_start im < 2 ^ 64 /\ im_ro_end im < 2 ^ 64 /\
  im_rw_start im < 2 ^ 64 /\ im_rw_end im < 2 ^ 64.

(** The sections follow each other *)
Definition in_order (im : image) : Prop :=
  im_code_start im < im_code_end im /\ im_code_end im <= im_ro_start im /\ im_ro_start im < im_ro_end im /\
  im_ro_end im <= im_rw_start im /\ im_rw_start im < im_rw_end im.

(** A layout that has to work, for addresses of [width] virtual and [pa_width] physical
    bits: everything consists of pages, the sections follow each other, and the pages of
    the console and of the shared buffer are apart from the image and from each other *)
Definition good_layout (width pa_width : N) (im : image) (shared_pa base : N) : Prop :=
  im_code_start im mod 4096 = 0 /\ im_code_end im mod 4096 = 0 /\ im_ro_start im mod 4096 = 0 /\
  im_ro_end im mod 4096 = 0 /\ im_rw_start im mod 4096 = 0 /\ im_rw_end im mod 4096 = 0 /\
  in_order im /\ im_rw_end im + 8192 <= 2 ^ width /\ im_rw_end im <= 2 ^ pa_width /\
  shared_pa mod 4096 = 0 /\ shared_pa + 4096 <= 2 ^ pa_width /\
  (shared_pa + 4096 <= im_code_start im \/ im_rw_end im <= shared_pa) /\
  base mod 4096 = 0 /\ base + 4096 <= 2 ^ width /\ base + 4096 <= 2 ^ pa_width /\
  (base + 4096 <= im_code_start im \/ im_rw_end im + 8192 <= base) /\
  (base + 4096 <= shared_pa \/ shared_pa + 4096 <= base).
