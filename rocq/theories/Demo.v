(** A concrete history of the system with two realms, used beside the theorems to
    show that their hypotheses are met. *)
From Coq Require Import NArith ZArith List Bool Lia.
From Verif Require Import Bits S2tte State Granule RecFields Measure RmiRtt RmiRealm Psci RmiRec Gic Esr Rsi RecRun Arch Mmu Machine Spec.
Import ListNotations.
Local Open Scope N_scope.

(** Executes a list of operations *)
Fixpoint exec (c : cfg) (h : hw) (m : mstate) (l : list op) : option (list (op * reply) * mstate) :=
  match l with
  | [] => Some ([], m)
  | o :: l' =>
    match step c h m o with
    | RDone m1 r => match exec c h m1 l' with Some (k, m') => Some ((o, r) :: k, m') | None => None end
    | _ => None
    end
  end.

Lemma exec_steps : forall c h l m k m', exec c h m l = Some (k, m') -> steps c h m k m' /\ map fst k = l.
Proof.
  intros c h l. induction l as [|o l IH]; intros m k m' E; cbn [exec] in E.
  - inversion E; subst. split; [constructor | reflexivity].
  - destruct (step c h m o) as [m1 r| | | |] eqn:ES; try discriminate.
    destruct (exec c h m1 l) as [[k1 m2]|] eqn:EX; try discriminate.
    inversion E; subst. destruct (IH _ _ _ EX) as [S M]. split.
    + econstructor; eassumption.
    + cbn. now rewrite M.
Qed.

(** ** The platform *)

Definition dcfg : cfg :=
  mkCfg (fun a => (a mod 4096 =? 0) && (a <? 2 ^ 40)) 48 true (48 + 2 ^ 8 + 5 * 2 ^ 14 + 5 * 2 ^ 20 + 6 * 2 ^ 27) false 0
        (fun alg l => fold_left (fun acc w => (acc * 1000003 + w + 7) mod 2 ^ 64) l (alg + 1)).
Definition dhw : hw := mkHw (mkGicf 3 (2 ^ 16 - 1) 0 false) (fun _ => 0) false.

Lemma dcfg_ok : cfg_ok dcfg.
Proof.
  intros a E. cbn [dcfg c_gran] in E. apply andb_true_iff in E. destruct E as [_ E].
  apply N.ltb_lt in E. eapply N.lt_trans; [exact E | reflexivity].
Qed.

(** Granule number [n] *)
Definition gr (n : N) : N := 2147483648 + n * 4096.
Definition on_cpu0 (l : list cmd) : list op := map (OCmd 0) l.

(** ** The history *)

(** Realm 1 lives at [gr 0] with one starting table of level 1, realm 2 at
    [gr 1] with two concatenated ones. *)
Definition dpar1 : rparams := mkRparams 0 33 0 1 1 0 0 77 1 (gr 2) 1 1.
Definition dpar2 : rparams := mkRparams 0 40 0 1 1 0 1 78 2 (gr 4) 1 2.
Definition drec (pc first : N) (runnable mpidr : N) : rec_params :=
  mkRecParams runnable mpidr pc (fun i => i) 16 (fun i => gr (first + i)).

Definition delegates (first : N) (n : nat) : list cmd :=
  map (fun i => KGranuleDelegate true (gr (first + N.of_nat i))) (seq 0 n).

Definition d_build : list op :=
  [OHost (gr 101) 0 42; OHost (gr 101) 1 43] ++
  on_cpu0 (delegates 0 80 ++
  [KRealmCreate (Some dpar1) (gr 0) (gr 100);
   KRealmCreate (Some dpar2) (gr 1) (gr 100);
   KRttCreate (gr 0) (gr 6) 0 2;
   KRttCreate (gr 0) (gr 7) 0 3;
   KRttCreate (gr 0) (gr 8) (2 ^ 32) 2;
   KRttInitRipas (gr 0) 0 16384;
   KDataCreate true (gr 0) (gr 9) 0 (gr 101) 1;
   KDataCreateUnknown (gr 0) (gr 10) 4096;
   KRttMapUnprotected (gr 0) (2 ^ 32) 2 (2 ^ 30 + 4 + 192);
   KRttCreate (gr 1) (gr 11) 0 2;
   KRttCreate (gr 1) (gr 12) 0 3;
   KRttInitRipas (gr 1) 0 (2 ^ 21);
   KDataCreate true (gr 1) (gr 13) 8192 (gr 101) 0;
   KRecCreate (Some (drec 0 20 1 0)) (gr 0) (gr 14) (gr 100);
   KRecCreate (Some (drec 64 36 0 1)) (gr 0) (gr 15) (gr 100);
   KRecCreate (Some (drec 4096 52 1 0)) (gr 1) (gr 16) (gr 100);
   KRealmActivate (gr 0)]).

Definition no_tm : timers := mkTm 0 0 0 0.
Definition dfin : fin := mkFin no_tm gic_zero 0 true.
Definition denter : rec_enter := mkEnter 0 (fun _ => 0) 0 (fun _ => 0).

(** The realm stores to its memory and to that of the host, and reads back *)
Definition d_run : list op :=
  [OEnter 0 (gr 14) (gr 102) (Some denter) dfin no_tm;
   OStore 0 8 4711;
   OLoad 0 8 3;
   OStore 0 (2 ^ 32 + 16) 99;
   OFill 0 0;
   OHost (2 ^ 30) 5 123;
   OCmd 1 (KRttReadEntry (gr 0) 0 3)].

Definition no_env : att_env := mkAttEnv true true SgState None.
(** A host call exit: an interrupt *)
Definition d_exit : list op := [OExit 0 (mkEv ExcIrq 0 0 0 no_env) dfin no_tm].

Definition after (l : list op) : mstate :=
  match exec dcfg dhw (init (fun a i => a + i)) l with Some (_, m) => m | None => init (fun _ _ => 0) end.
Definition fine (l : list op) : bool :=
  match exec dcfg dhw (init (fun a i => a + i)) l with Some _ => true | None => false end.

Lemma op_ok_dec : forall l, forallb (fun o => match o with
    | OExit _ ev _ _ => match ae_cca (ev_att ev) with None => true | Some (n, _) => n <=? REC_ATTEST_TOKEN_BUF_SIZE end &&
        match ev_exc ev with ExcSerror => bits (ev_esr ev) 31 26 =? 47 | _ => true end
    | OCmd _ (KRealmCreate (Some p) _ _) =>
      (p_rtt_base p mod (4096 * p_rtt_num_start p) =? 0) && (p_rtt_base p <? 2 ^ (if is_lpa2_requested p then 52 else 48))
    | _ => true end) l = true -> Forall op_ok l.
Proof.
  intros l E. apply Forall_forall. intros o Io. rewrite forallb_forall in E. specialize (E o Io).
  destruct o; try exact Logic.I.
  - destruct k; try exact Logic.I. destruct params; try exact Logic.I. cbn [op_ok].
    apply andb_true_iff in E. destruct E as [E1 E2]. apply N.eqb_eq in E1. apply N.ltb_lt in E2. split; assumption.
  - cbn [op_ok]. apply andb_true_iff in E. destruct E as [E1 E2]. split; [intros len bytes EQ; rewrite EQ in E1; now apply N.leb_le|].
    intro X. rewrite X in E2. now apply N.eqb_eq.
Qed.

Lemma after_reachable : forall l,
  forallb (fun o => match o with
    | OExit _ ev _ _ => match ae_cca (ev_att ev) with None => true | Some (n, _) => n <=? REC_ATTEST_TOKEN_BUF_SIZE end &&
        match ev_exc ev with ExcSerror => bits (ev_esr ev) 31 26 =? 47 | _ => true end
    | OCmd _ (KRealmCreate (Some p) _ _) =>
      (p_rtt_base p mod (4096 * p_rtt_num_start p) =? 0) && (p_rtt_base p <? 2 ^ (if is_lpa2_requested p then 52 else 48))
    | _ => true end) l = true ->
  reachable dcfg dhw (after l).
Proof.
  intros l E. split; [exact dcfg_ok|]. unfold after.
  destruct (exec dcfg dhw (init (fun a i => a + i)) l) as [[k m]|] eqn:EX.
  - destruct (exec_steps _ _ _ _ _ _ EX) as [S M]. exists (fun a i => a + i), k. split; [exact S|].
    rewrite M. apply op_ok_dec. exact E.
  - exists (fun _ _ => 0), []. split; constructor.
Qed.

Definition replies (l : list op) : list reply :=
  match exec dcfg dhw (init (fun a i => a + i)) l with Some (k, _) => map snd k | None => [] end.
Definition ok_reply (r : reply) : bool := match r with Reply x => x0 x =? 0 | _ => true end.

(** All these operations succeed *)
Lemma d_build_fine : forallb ok_reply (replies (d_build ++ d_run ++ d_exit)) = true /\ fine (d_build ++ d_run ++ d_exit) = true.
Proof. vm_compute. split; reflexivity. Qed.

(** Realm 1 runs; then it is back *)
Definition d_state : mstate := after (d_build ++ d_run).
Definition d_later : mstate := after (d_build ++ d_run ++ d_exit).
Lemma d_state_reachable : reachable dcfg dhw d_state.
Proof. apply after_reachable. vm_compute. reflexivity. Qed.
Lemma d_later_reachable : reachable dcfg dhw d_later.
Proof. apply after_reachable. vm_compute. reflexivity. Qed.

(** The realm descriptor or REC at an address *)
Definition rd_of (m : mstate) (a : N) : rdesc := match g_mem (m_gr m a) with CRd d => d | _ => rd_zero end.
Definition rec_of (m : mstate) (a : N) : recd := match g_mem (m_gr m a) with CRec r => r | _ => rec_zero end.
Definition is_rd_b (m : mstate) (a : N) : bool := match g_state (m_gr m a), g_mem (m_gr m a) with RD, CRd _ => true | _, _ => false end.
Definition is_rec_b (m : mstate) (a : N) : bool := match g_state (m_gr m a), g_mem (m_gr m a) with REC, CRec _ => true | _, _ => false end.
Lemma realm_b : forall m a, is_rd_b m a = true -> realm m a (rd_of m a).
Proof. intros m a. unfold is_rd_b, realm, rd_of. destruct (g_state (m_gr m a)); try discriminate. destruct (g_mem (m_gr m a)); try discriminate. auto. Qed.
Lemma rec_b : forall m a, is_rec_b m a = true -> rec_is m a (rec_of m a).
Proof. intros m a. unfold is_rec_b, rec_is, rec_of. destruct (g_state (m_gr m a)); try discriminate. destruct (g_mem (m_gr m a)); try discriminate. auto. Qed.

Definition d1 : rdesc := rd_of d_state (gr 0).
Definition d2 : rdesc := rd_of d_state (gr 1).
Lemma d_realm1 : realm d_state (gr 0) d1.
Proof. apply realm_b. vm_compute. reflexivity. Qed.
Lemma d_realm2 : realm d_state (gr 1) d2.
Proof. apply realm_b. vm_compute. reflexivity. Qed.
Definition r1 : recd := rec_of d_state (gr 14).
Lemma d_rec1 : rec_is d_state (gr 14) r1.
Proof. apply rec_b. vm_compute. reflexivity. Qed.
Lemma d_executes : executes d_state 0 (gr 14).
Proof.
  unfold executes. assert (E : option_map ru_rec (m_cpu d_state 0) = Some (gr 14)) by (vm_compute; reflexivity).
  destruct (m_cpu d_state 0) as [ru|]; [|discriminate E]. injection E as E. eauto.
Qed.

(** ** A step at the end of a history *)

Lemma exec_app : forall c h l l' m, exec c h m (l ++ l') =
  match exec c h m l with Some (k, m1) => match exec c h m1 l' with Some (k', m') => Some (k ++ k', m') | None => None end | None => None end.
Proof.
  intros c h l l'. induction l as [|o l IH]; intro m; cbn [exec app].
  - destruct (exec c h m l') as [[k m']|]; reflexivity.
  - destruct (step c h m o); try reflexivity. rewrite IH. destruct (exec c h _ l) as [[k m1]|]; [|reflexivity].
    destruct (exec c h m1 l') as [[k' m']|]; reflexivity.
Qed.
Definition last_reply (l : list op) : reply := last (replies l) NoReply.
Definition last_res (l : list op) : res := match last_reply l with Reply r => r | _ => mkRes 1 0 0 0 0 end.

Lemma last_step : forall l o, fine (l ++ [o]) = true -> step dcfg dhw (after l) o = RDone (after (l ++ [o])) (last_reply (l ++ [o])).
Proof.
  intros l o F. unfold fine in F. unfold last_reply, replies, after. rewrite exec_app in F |- *.
  destruct (exec dcfg dhw (init (fun a i => a + i)) l) as [[k m1]|]; [|discriminate F]. cbn [exec] in F |- *.
  destruct (step dcfg dhw m1 o) as [m2 r| | | |]; try discriminate F. rewrite map_app. cbn [map snd]. rewrite last_last. reflexivity.
Qed.
