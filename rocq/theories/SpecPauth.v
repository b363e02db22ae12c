(** What each world should find in the key registers, computed from what happened alone. *)
From Coq Require Import NArith List Bool.
From Verif Require Import Pauth.
Import ListNotations.
Local Open Scope N_scope.

(** The keys a REC left behind: what its realm wrote last, zeros before, nothing (m) before the
    REC is made.  Nothing else of the history matters *)
Fixpoint left_by (ops : list op) (m : keys) (r : N) : keys :=
  match ops with
  | [] => m
  | Create r' :: ops => left_by ops (if r =? r' then zero_keys else m) r
  | Write _ r' k :: ops => left_by ops (if r =? r' then k else m) r
  | _ :: ops => left_by ops m r
  end.
(** The first two values the entropy source gave at the last boot of a CPU *)
Fixpoint values (l : list (option N)) : list N :=
  match l with
  | [] => []
  | Some v :: l => v :: values l
  | None :: l => values l
  end.
Fixpoint drawn (ops : list op) (d : N * N) (c : N) : N * N :=
  match ops with
  | [] => d
  | Boot c' rnd :: ops => drawn ops (if c =? c' then (nth 0 (values rnd) 0, nth 1 (values rnd) 0) else d) c
  | _ :: ops => drawn ops d c
  end.
Definition wf_op (o : op) : Prop :=
  match o with Boot _ rnd => Forall (fun v => v < 2 ^ 64) (values rnd) | _ => True end.
