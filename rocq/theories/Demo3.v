(** A single step at the end of a history of the demonstration, with everything that is
    to be known about it computed at once *)
From Coq Require Import NArith ZArith List Bool Lia.
From Verif Require Import Bits S2tte State Granule RecFields Measure RmiRtt RmiRealm Psci RmiRec Gic Esr Rsi RecRun Arch Mmu Machine Spec SpecStep Demo Demo2.
Import ListNotations.
Local Open Scope N_scope.

Definition staged (l : list op) (o : op) (f : mstate -> mstate -> reply -> bool) : bool :=
  forallb op_okb (l ++ [o]) &&
  match exec dcfg dhw (init (fun a i => a + i)) l with
  | Some (_, m) => match step dcfg dhw m o with RDone m' rp => f m m' rp | _ => false end
  | None => false
  end.

Lemma stage : forall l o f, staged l o f = true -> exists m', exists rp, next dcfg dhw (after l) o m' rp /\ f (after l) m' rp = true.
Proof.
  intros l o f E. unfold staged in E. apply andb_prop in E. destruct E as [E F]. rewrite forallb_app in E. apply andb_prop in E. destruct E as [E1 E2].
  unfold after in *. destruct (exec dcfg dhw (init (fun a i => a + i)) l) as [[k m]|] eqn:X; [|discriminate F].
  destruct (step dcfg dhw m o) as [m' rp| | | |] eqn:S; try discriminate F. exists m', rp. split; [|exact F].
  split; [|split; [|exact S]].
  - pose proof (after_reachable l E1) as R. unfold after in R. rewrite X in R. exact R.
  - pose proof (op_ok_dec [o] E2) as K. inversion K. assumption.
Qed.

(** The same with the history that ends with the step *)
Lemma stage_after : forall l o f, staged l o f = true -> exists rp, next dcfg dhw (after l) o (after (l ++ [o])) rp /\ f (after l) (after (l ++ [o])) rp = true.
Proof.
  intros l o f E. destruct (stage l o f E) as (m' & rp & NX & F). exists rp. replace (after (l ++ [o])) with m'; [auto|].
  destruct NX as (_ & _ & S). unfold staged in E. apply andb_prop in E. destruct E as [_ E].
  unfold after in *. rewrite exec_app. destruct (exec dcfg dhw (init (fun a i => a + i)) l) as [[k m]|]; [|discriminate E].
  cbn [exec]. rewrite S. reflexivity.
Qed.

Definition succ (rp : reply) : bool := match rp with Reply r => x0 r =? 0 | _ => false end.
Definition res_of (rp : reply) : res := match rp with Reply r => r | _ => mkRes 1 0 0 0 0 end.
Definition exit_of (rp : reply) : rec_exit := match rp with Exited _ (Some x) => x | _ => exit_zero end.
Lemma succ_reply : forall rp, succ rp = true -> rp = Reply (res_of rp) /\ x0 (res_of rp) = 0.
Proof. intros [|r| |] E; try discriminate E. apply N.eqb_eq in E. auto. Qed.
Lemma succ_done : forall p k rp, succ rp = true -> done (OCmd p k) rp k (res_of rp).
Proof. intros p k rp E. destruct (succ_reply rp E) as [E1 E2]. exists p. auto. Qed.
Definition entered (rp : reply) : bool := match rp with Entered => true | _ => false end.
Lemma entered_reply : forall rp, entered rp = true -> rp = Entered.
Proof. intros [| | |] E; congruence || discriminate. Qed.
Definition exited (rp : reply) : bool := match rp with Exited 0 (Some _) => true | _ => false end.
Lemma exited_reply : forall rp, exited rp = true -> rp = Exited 0 (Some (exit_of rp)).
Proof. intros [| | |[|ret] [x|]] E; try discriminate E. reflexivity. Qed.

(** The results of several tests *)
Ltac facts H :=
  lazymatch type of H with
  | ?a && ?b = true => let H1 := fresh "Q" in let H2 := fresh "Q" in apply andb_prop in H; destruct H as [H1 H2]; facts H1; facts H2
  | (?a =? ?b) = true => apply N.eqb_eq in H
  | negb ?a = true => apply negb_true_iff in H
  | _ => idtac
  end.

Definition page_eqb (p q : page) : bool :=
  match p, q with
  | PUnassigned r, PUnassigned r' => match r, r' with EMPTY, EMPTY | RAM, RAM | DESTROYED, DESTROYED => true | _, _ => false end
  | PAssigned r a, PAssigned r' a' => match r, r' with EMPTY, EMPTY | RAM, RAM | DESTROYED, DESTROYED => a =? a' | _, _ => false end
  | _, _ => false
  end.
Lemma page_eq : forall p q, page_eqb p q = true -> p = q.
Proof.
  intros p q E. destruct p, q; try discriminate E; destruct r, r0; try discriminate E; try reflexivity;
    cbn [page_eqb] in E; apply N.eqb_eq in E; congruence.
Qed.
