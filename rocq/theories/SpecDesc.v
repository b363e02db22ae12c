(** What one expects of three separate variables. *)
From Coq Require Import NArith ZArith List Bool.
From Verif Require Import Desc.
Import ListNotations.
Local Open Scope N_scope.

(** Who holds the lock, the state and the reference count *)
Record fields := mkF { f_lock : option N; f_state : N; f_count : Z }.
(** How they are kept in a word *)
Definition word_of (x : fields) : N :=
  Z.to_N (f_count x) + 2 ^ 10 * f_state x + 2 ^ 15 * (match f_lock x with Some _ => 1 | None => 0 end).
Definition count_ok (z : Z) : Prop := (0 <= z < 1024)%Z.

(** What a function of CPU [p] does to the variables: each function touches one of them *)
Definition effect (p : N) (f : gcall) (x : fields) : fields :=
  match f with
  | GAcquire => mkF (Some p) (f_state x) (f_count x)
  | GRelease => mkF None (f_state x) (f_count x)
  | GSetState s => mkF (f_lock x) s (f_count x)
  | GInc n => mkF (f_lock x) (f_state x) (f_count x + Z.of_N n)
  | GDec n => mkF (f_lock x) (f_state x) (f_count x - Z.of_N n)
  | GPutRelease => mkF (f_lock x) (f_state x) (f_count x - 1)
  | GRead | GReadAcquire | GUnlockedState | GState => x
  end.
(** and what it returns *)
Definition answer (f : gcall) (x : fields) : N :=
  match f with
  | GRead | GReadAcquire => Z.to_N (f_count x)
  | GUnlockedState | GState => f_state x
  | _ => 0
  end.

(** Functions that may only be called with the lock held (comments of granule.h) *)
Definition needs_lock (f : gcall) : bool :=
  match f with GAcquire | GRead | GUnlockedState | GPutRelease => false | _ => true end.
Definition args_ok (f : gcall) : Prop :=
  match f with GSetState s => s < 32 | GInc n | GDec n => n < 65536 | _ => True end.

(** A log, the last entry first, is one of the three variables: the lock is acquired
    only when it is free, every answer is right and the count stays within its range *)
Inductive explains (x0 : fields) : list (N * gcall * N) -> fields -> Prop :=
| explains_nil : explains x0 [] x0
| explains_cons : forall l x p f r, explains x0 l x ->
    (f = GAcquire -> f_lock x = None) -> (needs_lock f = true -> f_lock x = Some p) -> r = answer f x ->
    count_ok (f_count (effect p f x)) ->
    explains x0 ((p, f, r) :: l) (effect p f x).

(** CPU [p] holds the lock according to a log *)
Fixpoint holds (p : N) (l : list (N * gcall * N)) : bool :=
  match l with
  | [] => false
  | (q, f, _) :: l' => match f with GAcquire => if q =? p then true else holds p l'
                                  | GRelease => if q =? p then false else holds p l'
                                  | _ => holds p l' end
  end.

(** Executions of any number of CPUs, each calling functions as the comments of granule.h
    allow, in any interleaving of the accesses *)
Definition allowed (x : conf) (mv : move) : Prop :=
  match mv with Start p f => args_ok f /\ (needs_lock f = true -> holds p (c_log x) = true) | Access _ => True end.
Definition start (d : N) : conf := mkConf d (fun _ => None) [].
Inductive runs (d : N) : conf -> Prop :=
| runs_start : runs d (start d)
| runs_move : forall x mv x', runs d x -> allowed x mv -> take x mv = Moved x' -> runs d x'.
