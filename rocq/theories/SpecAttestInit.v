(** What the generators should give, from the generator alone. *)
From Coq Require Import NArith List Bool.
From Verif Require Import AttestInit.
Import ListNotations.
Local Open Scope N_scope.

(** The answers of the source that are not failures *)
Fixpoint answers (src : list (option N)) : list N :=
  match src with
  | [] => []
  | Some v :: src => v :: answers src
  | None :: src => answers src
  end.
(** The generator after [k] blocks of 16 words *)
Fixpoint after {D} (R : drbg D) (d : D) (k : nat) : option D :=
  match k with
  | O => Some d
  | S k => match after R d k with Some d => option_map snd (d_gen R d 16) | None => None end
  end.
(** What one generator alone answers to requests for so many words *)
Fixpoint alone {D} (R : drbg D) (d : D) (ns : list nat) : list (option (list N)) :=
  match ns with
  | [] => []
  | n :: ns => match d_gen R d n with Some (out, d) => Some out :: alone R d ns | None => None :: alone R d ns end
  end.
(** The requests and the answers of one CPU *)
Definition of_cpu {A} (c : N) (l : list (N * A)) : list A := map snd (filter (fun p => fst p =? c) l).
