(** Vocabulary for C22. *)
From Coq Require Import NArith ZArith List.
From Verif Require Import S2tte S2tteFacts.
Import ListNotations.
Local Open Scope N_scope.

(** The nine kinds of entries the monitor builds, as numbers, and the predicate
    with which the code recognises each. *)
Definition kind (e : entry) : N :=
  match e with
  | EUnEmpty => 0 | EUnRam => 1 | EUnDestr => 2 | EUnNs => 3 | EAsEmpty _ => 4 | EAsRam _ => 5
  | EAsDestr _ => 6 | EAsNs _ _ => 7 | ETable _ => 8
  end.
Definition recognisers (level : Z) (w : N) : list bool :=
  [ s2tte_is_unassigned_empty w; s2tte_is_unassigned_ram w; s2tte_is_unassigned_destroyed w;
    s2tte_is_unassigned_ns w; s2tte_is_assigned_empty w level; s2tte_is_assigned_ram w level;
    s2tte_is_assigned_destroyed w level; s2tte_is_assigned_ns w level; s2tte_is_table w level ].

