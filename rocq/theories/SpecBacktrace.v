(** Stacks as the procedure call standard (AAPCS64, 6.4.6) has them. *)
From Coq Require Import NArith List Bool.
From Verif Require Import Backtrace.
Import ListNotations.
Local Open Scope N_scope.

(** An address an instruction can be read from *)
Definition code (m : memory) (a : N) : Prop := a <> 0 /\ a mod 4 = 0 /\ readable m a = true.
(** A frame record that can be read: two words, at a multiple of 8 *)
Definition record_at (m : memory) (fp : N) : Prop :=
  fp <> 0 /\ fp mod 8 = 0 /\ fp + 16 < 2 ^ 64 /\ forall i, i < 16 -> readable m (fp + i) = true.
(** The frame records from fp on are those of calls made at the addresses of the list, innermost
    first; the last one has no parent *)
Inductive stack (m : memory) (xpaci : N -> N) : N -> list N -> Prop :=
| stack_end : stack m xpaci 0 []
| stack_frame fp a l : record_at m fp -> code m a -> a < 2 ^ 64 -> xpaci (word m (fp + 8)) = (a + 4) mod 2 ^ 64 ->
    stack m xpaci (word m fp) l -> stack m xpaci fp (a :: l).
(** Lines of output: every address shown can be read; what is shown of a stack, at most n calls *)
Definition good (m : memory) (l : line) : Prop := match l with Site a => code m a | _ => True end.
Definition is_site (l : line) : bool := match l with Site _ => true | _ => false end.
Definition shown (n : nat) (l : list N) : list line :=
  map Site (firstn n l) ++ (if Nat.leb n (List.length l) then [MaxDepth] else []).
