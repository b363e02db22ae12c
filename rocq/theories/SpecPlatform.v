(** What a well-formed manifest is, independent of the code that checks it. *)
From Coq Require Import NArith ZArith List Bool.
Import ListNotations.
Local Open Scope N_scope.

(** A bank of DRAM: base address and size *)
Definition dram_bank := (N * N)%type.

(** The banks in a table of [n] pairs of words at [p] *)
Definition banks_at (ld : N -> N) (p : N) (n : N) : list dram_bank :=
  map (fun i => (ld (p + 16 * N.of_nat i), ld (p + 16 * N.of_nat i + 8))) (seq 0 (N.to_nat n)).

(** The sum of [n] words at [p] *)
Definition words_sum (ld : N -> N) (p n : N) : N :=
  fold_right N.add 0 (map (fun i => ld (p + 8 * N.of_nat i)) (seq 0 (N.to_nat n))).

(** An address that belongs to DRAM *)
Definition in_bank (b : dram_bank) (a : N) : Prop := fst b <= a < fst b + snd b.
Definition dram (bs : list dram_bank) (a : N) : Prop := exists b, In b bs /\ in_bank b a.
(** The address of a granule of DRAM *)
Definition dram_granule (bs : list dram_bank) (a : N) : Prop := a mod 4096 = 0 /\ dram bs a.

(** The bank starts and ends at granules, is neither empty nor at 0 *)
Definition bank_ok (b : dram_bank) : Prop :=
  fst b <> 0 /\ snd b <> 0 /\ fst b mod 4096 = 0 /\ snd b mod 4096 = 0.
(** Each bank ends before all later ones start *)
Definition ascending (bs : list dram_bank) : Prop :=
  forall i j b b', (i < j)%nat -> nth_error bs i = Some b -> nth_error bs j = Some b' -> fst b + snd b <= fst b'.
Definition disjoint_banks (bs : list dram_bank) : Prop :=
  forall i j b b' a, i <> j -> nth_error bs i = Some b -> nth_error bs j = Some b' -> ~ (in_bank b a /\ in_bank b' a).

(** The number of granules of DRAM *)
Definition total_granules (bs : list dram_bank) : N := fold_right N.add 0 (map (fun b => snd b / 4096) bs).
(** The number of granules of DRAM below [a] *)
Definition granules_below (bs : list dram_bank) (a : N) : N :=
  fold_right N.add 0 (map (fun b => N.min (snd b) (a - fst b) / 4096) bs).

(** The table describes DRAM within [w] bits of address *)
Definition dram_ok (w : N) (bs : list dram_bank) : Prop :=
  bs <> [] /\ Forall bank_ok bs /\ ascending bs /\ Forall (fun b => fst b + snd b <= 2 ^ w) bs.

(** Memory holds 64-bit words *)
Definition mem64 (ld : N -> N) : Prop := forall a, ld a < 2 ^ 64.
(** The table of [n] banks at [p] lies in the address space *)
Definition table_in_memory (p n : N) : Prop := p + 16 * n <= 2 ^ 64.
(** No bank goes beyond the end of the 64-bit address space *)
Definition banks_end (bs : list dram_bank) : Prop := Forall (fun b => fst b + snd b <= 2 ^ 64) bs.
