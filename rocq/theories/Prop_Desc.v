(** C23: the fields of a granule descriptor are independent under concurrency. *)
From Coq Require Import NArith ZArith List Bool Lia.
From Verif Require Import Desc SpecDesc DescFacts.
Import ListNotations.
Local Open Scope N_scope.

(** In every interleaving of the accesses of any number of CPUs to one descriptor, the
    functions that have returned are explained, in the order in which they returned, by
    three separate variables, and the word holds these variables. *)
Theorem C23_fields : forall x0 x, f_lock x0 = None -> f_state x0 < 32 -> count_ok (f_count x0) -> runs (word_of x0) x ->
  exists y, explains x0 (c_log x) y /\ c_word x = word_of y.
Proof. exact desc_fields. Qed.

(** An assertion fails only where the count would leave its range. *)
Theorem C23_fails : forall x0 x mv p f x', f_lock x0 = None -> f_state x0 < 32 -> count_ok (f_count x0) -> runs (word_of x0) x ->
  allowed x mv -> take x mv = Failed p f x' ->
  exists y, explains x0 (c_log x) y /\ ~ count_ok (f_count (effect p f y)).
Proof. exact desc_fails. Qed.

(** Two CPUs never hold the lock at the same time, and while one holds it the bit is set. *)
Theorem C23_lock : forall x0 x p q, f_lock x0 = None -> f_state x0 < 32 -> count_ok (f_count x0) -> runs (word_of x0) x ->
  holds p (c_log x) = true -> (holds q (c_log x) = true -> p = q) /\ LOCKED (c_word x) = true.
Proof. exact desc_lock. Qed.

(** The word determines the variables. *)
Theorem C23_word : forall y, f_state y < 32 -> count_ok (f_count y) ->
  STATE (word_of y) = f_state y /\ Z.of_N (REFCOUNT (word_of y)) = f_count y /\
  LOCKED (word_of y) = match f_lock y with Some _ => true | None => false end.
Proof. exact word_fields. Qed.

(** Two CPUs, a REC with one reference: CPU 1 takes the lock and changes the state; CPU 2
    drops its reference, and tries to take the lock, between the read and the eor of
    this change *)
Fixpoint takes (x : conf) (l : list move) : option conf :=
  match l with [] => Some x | mv :: l' => match take x mv with Moved x' => takes x' l' | _ => None end end.
Definition allowedb (x : conf) (mv : move) : bool :=
  match mv with
  | Start p f => (match f with GSetState s => s <? 32 | GInc n | GDec n => n <? 65536 | _ => true end) &&
                 (negb (needs_lock f) || holds p (c_log x))
  | Access _ => true
  end.
Fixpoint all_allowed (x : conf) (l : list move) : bool :=
  match l with [] => true | mv :: l' => allowedb x mv && match take x mv with Moved x' => all_allowed x' l' | _ => false end end.
Lemma takes_runs : forall d l x x', runs d x -> all_allowed x l = true -> takes x l = Some x' -> runs d x'.
Proof.
  intros d l. induction l as [|mv l IH]; intros x x' R A T; cbn [takes all_allowed] in *; [injection T as <-; exact R|].
  apply andb_prop in A. destruct A as [A1 A2]. destruct (take x mv) as [x1| |] eqn:E; try discriminate.
  apply (IH x1); auto. apply runs_move with (x := x) (mv := mv); auto.
  destruct mv as [p f|p]; [|exact Logic.I]. cbn [allowedb allowed] in *. apply andb_prop in A1. destruct A1 as [B1 B2]. split.
  - destruct f; try exact Logic.I; cbn [args_ok]; apply N.ltb_lt; exact B1.
  - intros N. rewrite N in B2. exact B2.
Qed.
Definition d_moves : list move :=
  [ Start 1 GAcquire; Access 1; Start 1 (GSetState 1); Access 1; Access 1;
    Start 2 GPutRelease; Access 2; Start 2 GAcquire; Access 2; Access 1; Access 2;
    Start 1 GRelease; Access 1; Access 2; Start 2 GState; Access 2; Access 2; Start 2 (GInc 3); Access 2; Access 2 ].
Example C23_example : exists x,
  runs (word_of (mkF None 3 1)) x /\ holds 2 (c_log x) = true /\ c_word x = word_of (mkF (Some 2) 1 3) /\
  c_log x = [(2, GInc 3, 0); (2, GState, 1); (2, GAcquire, 0); (1, GRelease, 0); (1, GSetState 1, 0); (2, GPutRelease, 0); (1, GAcquire, 0)] /\
  (* one more reference than fits *)
  exists x1 x2, allowed x (Start 2 (GInc 1021)) /\ take x (Start 2 (GInc 1021)) = Moved x1 /\
    exists x1', take x1 (Access 2) = Moved x1' /\ take x1' (Access 2) = Failed 2 (GInc 1021) x2.
Proof.
  destruct (takes (start (word_of (mkF None 3 1))) d_moves) as [x|] eqn:E; [|vm_compute in E; discriminate].
  exists x. split.
  - refine (takes_runs _ d_moves _ _ (runs_start _) _ E). vm_compute. reflexivity.
  - vm_compute in E. injection E as <-. repeat (split; [vm_compute; reflexivity|]).
    do 2 eexists. split; [split; [vm_compute; reflexivity|intros _; vm_compute; reflexivity]|].
    split; [vm_compute; reflexivity|]. eexists. split; vm_compute; reflexivity.
Qed.

(** The lock is needed: two CPUs that change the state without it leave a state that is
    neither the old one nor one of theirs *)
Example C23_needs_lock : exists x,
  takes (start (word_of (mkF (Some 0) 1 0)))
    [Start 1 (GSetState 2); Start 2 (GSetState 4); Access 1; Access 2; Access 1; Access 2; Access 1; Access 2] = Some x /\
  STATE (c_word x) = 7.
Proof. eexists. split; vm_compute; reflexivity. Qed.

Definition desc_theorems := (@C23_fields, @C23_fails, @C23_lock, @C23_word).
Print Assumptions desc_theorems.
