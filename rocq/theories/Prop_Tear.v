(** C36: every realm can be taken apart.  The vocabulary is in Spec.v, SpecTables.v
    and SpecTear.v. *)
From Coq Require Import NArith ZArith List Bool.
From Verif Require Import Bits S2tte State Granule RecFields Measure RmiRtt RmiRealm Psci RmiRec Gic Esr Rsi RecRun Arch Mmu Machine
  Spec SpecStep SpecTables SpecTear Demo Demo2 Tear.
Import ListNotations.
Local Open Scope N_scope.

(** From every reachable state in which no CPU executes a REC of the realm and CPU [p]
    executes none at all, the host has commands for CPU [p], each of which succeeds,
    after which every granule that was the realm's is DELEGATED and every other granule
    is as it was, its contents included.  Memory mapped by blocks has to be split into
    pages before it can be destroyed; for that the host needs two delegated granules,
    and has them back at the end. *)
Theorem C36_torn_down : forall c h m p rd d, reachable c h m -> m_cpu m p = None -> realm m rd d ->
  (forall a r q, rec_is m a r -> r_g_rd r = rd -> ~ executes m q a) -> no_blocks m d \/ two_spares m d ->
  exists l m', succeed c h p m l m' /\ Forall dismantles l /\
    (forall a, belongs m rd a -> g_state (m_gr m' a) = DELEGATED) /\ (forall a, ~ belongs m rd a -> m_gr m' a = m_gr m a).
Proof. exact tears. Qed.

(** Before it runs, the first realm of the demonstration has tables of three levels,
    data, RECs and memory of the host *)
Definition is_free (g : granule) : bool := match g_state g with NS | DELEGATED => true | _ => false end.
Definition is_del (g : granule) : bool := match g_state g with DELEGATED => true | _ => false end.
Lemma del_b : forall g, is_del g = true -> g_state g = DELEGATED.
Proof. intros g. unfold is_del. destruct (g_state g); congruence. Qed.
Definition d_parts (m : mstate) : bool :=
  is_rd_b m (gr 0) && is_rec_b m (gr 14) && (r_g_rd (rec_of m (gr 14)) =? gr 0) && is_del (m_gr m (gr 70)) && is_del (m_gr m (gr 71)) &&
  forallb (fun n => negb (is_free (m_gr m (gr n)))) [0; 6; 7; 8; 9; 10; 14].
Example C36_example : exists l m', succeed dcfg dhw 0 (after d_build) l m' /\ Forall dismantles l /\ d_parts (after d_build) = true /\
  g_state (m_gr m' (gr 0)) = DELEGATED /\ g_state (m_gr m' (gr 14)) = DELEGATED.
Proof.
  assert (G : good d_build && d_parts (after d_build) = true) by (vm_compute; reflexivity). apply andb_prop in G. destruct G as [G F].
  assert (NC : forall q, m_cpu (after d_build) q = None) by (intro q; vm_compute; reflexivity).
  pose proof (good_reach _ G) as RE. revert RE NC F. generalize (after d_build) as m. intros m RE NC F. pose proof F as F0. unfold d_parts in F.
  repeat (apply andb_prop in F; destruct F as [F ?]).
  destruct (C36_torn_down dcfg dhw m 0 (gr 0) (rd_of m (gr 0)) RE (NC 0) (realm_b _ _ F)) as (l & m' & SC & DL & B & _).
  - intros a r0 q _ _ (ru & E & _). rewrite NC in E. discriminate E.
  - right. exists (gr 70), (gr 71). split; [discriminate|]. split; [apply del_b; assumption|]. split; [apply del_b; assumption|]. split; right; reflexivity.
  - exists l, m'. split; [exact SC|]. split; [exact DL|]. split; [exact F0|]. split; apply B; [constructor|].
    eapply b_rec; [apply rec_b; assumption|apply N.eqb_eq; assumption].
Qed.

Definition tear_theorems := (@C36_torn_down, @C36_example).
Print Assumptions tear_theorems.
