(** C24: any number of CPUs handling RMI commands at the same time. *)
From Coq Require Import NArith ZArith List Bool Relations.
From Verif Require Import Bits S2tte State Granule Measure Machine Act Conc Spec SpecConc ConcFacts Demo.
Import ListNotations.
Local Open Scope N_scope.

(** In every interleaving of any commands in which no RMI_REC_CREATE releases a
    lock that it does not hold, two CPUs never hold the lock of the same granule. *)
Theorem C24_exclusion_partial : forall c m p q g, cfg_ok c -> runs c tidy m -> holds m p g -> holds m q g -> p = q.
Proof. exact exclusion. Qed.

(** The lock bit is set exactly while some CPU holds the lock. *)
Theorem C24_lock_bit_partial : forall c m g, cfg_ok c -> runs c tidy m -> (k_locks m g = true <-> exists p, holds m p g).
Proof. exact lock_owned. Qed.

(** An action of a CPU that changes the state, the reference count or the
    contents of a granule is made while the CPU holds its lock.  The one
    exception is the reference of a destroyed REC to its realm: RMI_REC_DESTROY
    drops it with an atomic decrement (rec.c:441). *)
Theorem C24_writes_partial : forall c m p m' g, cfg_ok c -> runs c tidy m ->
  cstep c m (Go p) m' -> k_gr m' g <> k_gr m g ->
  holds m p g \/
  (exists k, handles m p k /\ is_rec_destroy k) /\
  k_gr m' g = mkG (g_state (k_gr m g)) (g_ref (k_gr m g) - 1) (g_mem (k_gr m g)).
Proof. exact writes_locked. Qed.

(** A CPU that returns to the host holds no lock. *)
Theorem C24_release_partial : forall c m p m', cfg_ok c -> runs c tidy m ->
  cstep c m (Go p) m' -> k_cpu m' p = None -> forall g, ~ holds m p g.
Proof. exact released. Qed.

(** The CPUs that handle commands which lock only granules named by the host
    never wait for each other in a cycle, whatever the other CPUs do. *)
Theorem C24_deadlock_partial : forall c m p, cfg_ok c -> runs c tidy m -> ~ clos_trans N (named_waits m) p p.
Proof. exact no_cycle. Qed.

(** ** Schedules that compute *)

Definition cexec (c : cfg) (m : conc) (e : event) : option conc :=
  match e with
  | Start p k G =>
      match k_cpu m p with
      | None => Some (mkC (k_locks m) (k_gr m) (k_vmids m) (k_tlb m)
                          (upd (k_cpu m) p (Some (mkCpu k (cmd_prog c G k) (fun _ => false) []))))
      | Some _ => None
      end
  | Go p =>
      match k_cpu m p with
      | None => None
      | Some u =>
          match act (u_prog u) (local m u) with
          | ANext p' s' => Some (shared s' (upd (k_cpu m) p (Some (mkCpu (u_cmd u) p' (s_slots s') (held_after (u_prog u) (u_held u))))))
          | AEnd _ => Some (mkC (k_locks m) (k_gr m) (k_vmids m) (k_tlb m) (upd (k_cpu m) p None))
          | _ => None
          end
      end
  | Env _ _ => None
  end.
Fixpoint cexecs (c : cfg) (m : conc) (l : list event) : option conc :=
  match l with [] => Some m | e :: l' => match cexec c m e with Some m1 => cexecs c m1 l' | None => None end end.

Lemma cexec_step : forall c m e m', cexec c m e = Some m' -> cstep c m e m'.
Proof.
  intros c m e m' E. destruct e as [p k G|p|]; cbn [cexec] in E; [| |discriminate E].
  - destruct (k_cpu m p) eqn:K; [discriminate E|]. injection E as <-. apply c_start, K.
  - destruct (k_cpu m p) as [u|] eqn:K; [|discriminate E].
    destruct (act (u_prog u) (local m u)) eqn:A; try discriminate E; injection E as <-.
    + apply c_next; assumption.
    + destruct (u_prog u) eqn:EP; cbn [act] in A; try discriminate A;
        try (destruct (s_locks _ _); discriminate A); try (destruct (s_slots _ _); discriminate A);
        try (destruct (g_mem _); discriminate A). apply (c_end c m p u a0 K EP).
Qed.
Lemma cexecs_history : forall c l m m', cexecs c m l = Some m' -> history c m l m'.
Proof.
  intros c l. induction l as [|e l IH]; intros m m' E; cbn [cexecs] in E; [injection E as <-; constructor|].
  destruct (cexec c m e) as [m1|] eqn:E1; [|discriminate E]. econstructor; [apply cexec_step, E1|apply IH, E].
Qed.

(** The same with a check that the events are tidy *)
Definition tidyb (m : conc) (e : event) : bool :=
  match e with
  | Go p =>
      match k_cpu m p with
      | Some u => match u_prog u with Unlock g _ => existsb (N.eqb g) (u_held u) | _ => true end
      | None => true
      end
  | _ => true
  end.
Lemma tidyb_ok : forall m e, tidyb m e = true -> tidy m e.
Proof.
  intros m e E. destruct e as [p k G|p|]; cbn [tidy tidyb] in *; try exact I.
  intros k g _ _ (u & k' & K & EP). rewrite K, EP in E. exists u. split; [exact K|].
  apply existsb_exists in E. destruct E as (x & J & EQ). apply N.eqb_eq in EQ. subst. exact J.
Qed.
Fixpoint texecs (c : cfg) (m : conc) (l : list event) : option conc :=
  match l with
  | [] => Some m
  | e :: l' => if tidyb m e then match cexec c m e with Some m1 => texecs c m1 l' | None => None end else None
  end.
Lemma texecs_runs : forall c l m m', runs c tidy m -> texecs c m l = Some m' -> runs c tidy m'.
Proof.
  intros c l. induction l as [|e l IH]; intros m m' R E; cbn [texecs] in E; [injection E as <-; exact R|].
  destruct (tidyb m e) eqn:T; [|discriminate E]. destruct (cexec c m e) as [m1|] eqn:E1; [|discriminate E].
  apply (IH m1 m'); [|exact E]. apply (r_step c tidy m e m1 R (tidyb_ok m e T) (cexec_step c m e m1 E1)).
Qed.
Lemma boot_runs : forall c ok mem, runs c ok (boot mem).
Proof. intros. apply r_init. split; reflexivity. Qed.

Definition holdsb (m : conc) (p g : N) : bool :=
  match k_cpu m p with Some u => existsb (N.eqb g) (u_held u) | None => false end.
Lemma holdsb_ok : forall m p g, holdsb m p g = true -> holds m p g.
Proof.
  intros m p g E. unfold holdsb in E. destruct (k_cpu m p) as [u|] eqn:K; [|discriminate E]. exists u. split; [exact K|].
  apply existsb_exists in E. destruct E as (x & J & EQ). apply N.eqb_eq in EQ. subst. exact J.
Qed.
Definition waitsb (m : conc) (p g : N) : bool :=
  match k_cpu m p with Some u => match u_prog u with Lock x _ => (x =? g) && k_locks m g | _ => false end | None => false end.
Lemma waitsb_ok : forall m p g, waitsb m p g = true -> waits m p g.
Proof.
  intros m p g E. unfold waitsb in E. destruct (k_cpu m p) as [u|] eqn:K; [|discriminate E].
  destruct (u_prog u) eqn:EP; try discriminate E. apply andb_true_iff in E. destruct E as (E & L). apply N.eqb_eq in E. subst.
  exists u. eexists. eauto.
Qed.

Definition zero_mem : N -> N -> N := fun _ _ => 0.
Definition go (p : N) (n : nat) : list event := repeat (Go p) n.
Definition no_host : N -> granule := fun _ => mkG NS 0 czero.
Definition some_rec (aux : list N) : rec_params :=
  mkRecParams 1 0 0 (fun _ => 0) (N.of_nat (length aux)) (fun i => nth (N.to_nat i) aux 0).
(** Delegate one granule; then RMI_REC_CREATE on CPU 0 with two auxiliary
    granules *)
Definition delegate (p g : N) : list event := Start p (KGranuleDelegate true g) no_host :: go p 14.
Definition create (aux : list N) : event := Start 0 (KRecCreate (Some (some_rec aux)) (gr 0) (gr 5) (gr 9)) no_host.

(** Non-vacuity: CPU 0 creates a REC and holds the lock of its second auxiliary
    granule, CPU 1 undelegates the same granule and waits, CPU 2 holds another *)
Definition busy_sched : list event :=
  delegate 0 (gr 1) ++ delegate 0 (gr 2) ++ create [gr 1; gr 2] :: go 0 14 ++
  Start 1 (KGranuleUndelegate true (gr 2)) no_host :: Start 2 (KGranuleDelegate true (gr 3)) no_host :: go 2 4.
Example C24_example : exists m, runs dcfg tidy m /\ holds m 0 (gr 2) /\ waits m 1 (gr 2) /\ holds m 2 (gr 3) /\
  named_waits m 1 0.
Proof.
  assert (X : match texecs dcfg (boot zero_mem) busy_sched with
              | Some m => holdsb m 0 (gr 2) && waitsb m 1 (gr 2) && holdsb m 2 (gr 3) &&
                          match k_cpu m 0, k_cpu m 1 with
                          | Some (mkCpu (KRecCreate _ _ _ _) _ _ _), Some (mkCpu (KGranuleUndelegate _ _) _ _ _) => true
                          | _, _ => false
                          end
              | None => false
              end = true) by (vm_compute; reflexivity).
  destruct (texecs dcfg (boot zero_mem) busy_sched) as [m|] eqn:E; [|discriminate X]. exists m.
  apply andb_true_iff in X. destruct X as (X & K). apply andb_true_iff in X. destruct X as (X & H2).
  apply andb_true_iff in X. destruct X as (H0 & W1). apply holdsb_ok in H0, H2. apply waitsb_ok in W1.
  split; [apply (texecs_runs dcfg busy_sched (boot zero_mem) m (boot_runs _ _ _) E)|].
  split; [exact H0|]. split; [exact W1|]. split; [exact H2|].
  destruct (k_cpu m 0) as [[[] ? ? ?]|] eqn:K0; try discriminate K. destruct (k_cpu m 1) as [[[] ? ? ?]|] eqn:K1; try discriminate K.
  split; [|split].
  - eexists. split; [eexists; split; [exact K1|reflexivity]|exact I].
  - eexists. split; [eexists; split; [exact K0|reflexivity]|exact I].
  - exists (gr 2). split; assumption.
Qed.

(** The whole claim is false: RMI_REC_CREATE, on finding that an auxiliary
    granule is not delegated, unlocks those that it already unlocked
    (rec.c:289-295).  From boot: the host delegates one granule; CPU 0 creates a
    REC with that granule and one that is not delegated as auxiliary granules;
    CPU 1 undelegates the first one and has its lock when CPU 0 releases it.
    CPU 0 then takes the lock: two CPUs hold it. *)
Definition clash_sched : list event :=
  delegate 0 (gr 1) ++ create [gr 1; gr 2] :: go 0 13 ++
  Start 1 (KGranuleUndelegate true (gr 1)) no_host :: go 1 1 ++ go 0 9.
Theorem C24_refuted : exists c mem l m p q g, cfg_ok c /\ history c (boot mem) l m /\ p <> q /\ holds m p g /\ holds m q g.
Proof.
  assert (X : match cexecs dcfg (boot zero_mem) clash_sched with
              | Some m => holdsb m 0 (gr 1) && holdsb m 1 (gr 1)
              | None => false
              end = true) by (vm_compute; reflexivity).
  destruct (cexecs dcfg (boot zero_mem) clash_sched) as [m|] eqn:E; [|discriminate X].
  apply andb_true_iff in X. destruct X as (H0 & H1). exists dcfg, zero_mem, clash_sched, m, 0, 1, (gr 1).
  split; [exact dcfg_ok|]. split; [apply cexecs_history, E|]. split; [discriminate|]. split; apply holdsb_ok; assumption.
Qed.

Definition conc_theorems :=
  (@C24_exclusion_partial, @C24_lock_bit_partial, @C24_writes_partial, @C24_release_partial, @C24_deadlock_partial,
   @C24_example, @C24_refuted).
Print Assumptions conc_theorems.
