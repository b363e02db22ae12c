(** Single steps at the end of the history of Demo.v *)
From Coq Require Import NArith ZArith List Bool Lia.
From Verif Require Import Bits S2tte State Granule RecFields Measure RmiRtt RmiRealm Psci RmiRec Gic Esr Rsi RecRun Arch Mmu Machine Spec SpecStep Demo.
Import ListNotations.
Local Open Scope N_scope.

Definition op_okb (o : op) : bool :=
  match o with
  | OExit _ ev _ _ => match ae_cca (ev_att ev) with None => true | Some (n, _) => n <=? REC_ATTEST_TOKEN_BUF_SIZE end &&
        match ev_exc ev with ExcSerror => bits (ev_esr ev) 31 26 =? 47 | _ => true end
  | OCmd _ (KRealmCreate (Some p) _ _) =>
    (p_rtt_base p mod (4096 * p_rtt_num_start p) =? 0) && (p_rtt_base p <? 2 ^ (if is_lpa2_requested p then 52 else 48))
  | _ => true
  end.

(** The history succeeds to its end *)
Definition good (l : list op) : bool := forallb op_okb l && fine l.
Lemma good_reach : forall l, good l = true -> reachable dcfg dhw (after l).
Proof. intros l E. apply andb_prop in E. apply after_reachable. exact (proj1 E). Qed.
Lemma good_next : forall l o, good (l ++ [o]) = true -> next dcfg dhw (after l) o (after (l ++ [o])) (last_reply (l ++ [o])).
Proof.
  intros l o E. apply andb_prop in E. destruct E as [E F]. rewrite forallb_app in E. apply andb_prop in E. destruct E as [E1 E2].
  split; [apply after_reachable; exact E1|]. split; [|apply last_step; exact F].
  pose proof (op_ok_dec [o] E2) as K. inversion K. assumption.
Qed.
Lemma good_done : forall l p k, match last_reply (l ++ [OCmd p k]) with Reply r => x0 r =? 0 | _ => false end = true ->
  done (OCmd p k) (last_reply (l ++ [OCmd p k])) k (last_res (l ++ [OCmd p k])).
Proof.
  intros l p k E. exists p. split; [reflexivity|]. unfold last_res. destruct (last_reply (l ++ [OCmd p k])); try discriminate E.
  split; [reflexivity|]. apply N.eqb_eq, E.
Qed.

(** The REC on CPU 0 executes an SMC with these arguments *)
Definition d_smc (fid a1 a2 a3 : N) : list op :=
  [ORegs 0 (fun i => match i with 0 => fid | 1 => a1 | 2 => a2 | 3 => a3 | _ => i end) 0 0 5 (fun _ => 0);
   OExit 0 (mkEv ExcSync (23 * 2 ^ 26) 0 0 no_env) dfin no_tm].
Definition d_enter : op := OEnter 0 (gr 14) (gr 102) (Some denter) dfin no_tm.
Definition d_base : list op := d_build ++ d_run.

(** The realm turns its second REC on, twice *)
Definition d_on : list op :=
  d_base ++ d_smc 0xC4000003 1 64 5 ++ [OCmd 1 (KPsciComplete (gr 14) (gr 15) 0); d_enter] ++ d_smc 0xC4000003 1 64 5.

Lemma executes_b : forall m p a, match m_cpu m p with Some ru => ru_rec ru =? a | None => false end = true -> executes m p a.
Proof.
  intros m p a E. unfold executes. destruct (m_cpu m p) as [ru|]; [|discriminate E]. apply N.eqb_eq in E. eauto.
Qed.
