(** GRANULE_DELEGATE and GRANULE_UNDELEGATE *)
From Coq Require Import NArith ZArith List Bool Lia ZifyBool ZifyN.
From Verif Require Import Bits S2tte S2tteFacts State Granule Wp RecFields Measure RmiGranule RmiRtt RmiRealm Psci RmiRec
  Inv InvTree InvStep InvStep2 InvStep3 Effects CmdLib.
Import ListNotations.
Local Open Scope N_scope.

Section Cmd.
Variables (c : cfg) (gh : ghost) (G : N -> granule) (V : N -> bool).
Hypothesis I : Inv c gh G V.
Variables (L S : N -> bool) (T : list tlbe).
Hypothesis HL : free L.
Hypothesis HS : free S.

Lemma wp_granule_delegate : forall el3 a,
  wp False (smc_granule_delegate c el3 a) (mkS L S G V T) (fun r s' =>
    cmd_post c gh G V T r (r = RMI_ERROR_INPUT /\ ~ (el3 = true /\ find_granule c a = true /\ g_state (G a) = NS))
      (fun _ labs inv => labs = [LFree a (mkG DELEGATED 0 czero)] /\ inv = [] /\ g_state (G a) = NS /\ el3 = true /\ find_granule c a = true) s').
Proof.
  intros el3 a. unfold smc_granule_delegate. apply wp_bind, wp_find_lock; [apply HL|apply (inv_uok _ _ _ _ I)| |].
  - intros F St. cbn [negb]. destruct el3; cbn [negb].
    + apply wp_bind, wp_set_state; [side|]. apply wp_bind, wp_memzero; [apply HS|]. intros S1 HS1. updsimp.
      pose proof (i_ns _ _ _ _ I a St) as (Rf & _).
      apply wp_bind, wp_granule_unlock; [side|unfold uok; updsimp; rewrite Rf; reflexivity|]. apply wp_ret.
      eapply post_ok with (inv := []).
      * intro z. unpw. addr_cases z; [reflexivity|apply HL].
      * intro z. rewrite HS1. apply HS.
      * eapply geffs_one. apply (g_free _ _ _ _ a).
        -- left. rewrite upd_same. split; [eapply fr_ns; eassumption|]. rewrite Rf. split; [right; reflexivity|auto].
        -- intros z nz. updsimp. reflexivity.
      * reflexivity.
      * rewrite upd_same, Rf. repeat split; assumption.
    + apply wp_bind, wp_granule_unlock; [side|apply (inv_uok _ _ _ _ I)|]. apply wp_ret.
      apply post_fail; try assumption; try discriminate; try reflexivity.
      2:{ split; [reflexivity|]. intros (K & _). discriminate K. }
      intro z. unpw. addr_cases z; [reflexivity|apply HL].
  - intros L' HL' C. apply wp_ret. apply post_fail; try assumption; try discriminate; try reflexivity.
    2:{ split; [reflexivity|]. intros (_ & K1 & K2). destruct C as [C|C]; congruence. }
    intro z. rewrite HL'. apply HL.
Qed.

(** EL3 refusing to undelegate is a panic *)
Lemma wp_granule_undelegate : forall el3 a,
  wp (el3 = false) (smc_granule_undelegate c el3 a) (mkS L S G V T) (fun r s' =>
    cmd_post c gh G V T r (r = RMI_ERROR_INPUT /\ g_state (G a) <> DELEGATED)
      (fun _ labs inv => labs = [LFree a (mkG NS 0 czero)] /\ inv = [] /\ g_state (G a) = DELEGATED) s').
Proof.
  intros el3 a. unfold smc_granule_undelegate. apply wp_bind, wp_find_lock; [apply HL|apply (inv_uok _ _ _ _ I)| |].
  - intros F St. cbn [negb]. destruct el3; cbn [negb].
    + pose proof (i_del _ _ _ _ I a St) as Ga.
      apply wp_bind, wp_set_state; [side|]. rewrite Ga. cbn [g_ref g_mem].
      apply wp_bind, wp_granule_unlock; [side|unfold uok; updsimp; reflexivity|]. apply wp_ret.
      eapply post_ok with (inv := []).
      * intro z. unpw. addr_cases z; [reflexivity|apply HL].
      * apply HS.
      * eapply geffs_one. apply (g_free _ _ _ _ a).
        -- left. rewrite upd_same. split; [eapply fr_del; eassumption|]. split; [|intro N; contradiction N; reflexivity].
           left. cbn. repeat split. eexists. reflexivity.
        -- intros z nz. updsimp. reflexivity.
      * reflexivity.
      * rewrite upd_same. repeat split; assumption.
    + apply wp_bind, wp_granule_unlock; [side|apply (inv_uok _ _ _ _ I)|]. reflexivity.
  - intros L' HL' C. apply wp_ret. apply post_fail; try assumption; try discriminate; try reflexivity.
    2:{ split; [reflexivity|]. destruct C as [C|C]; [|exact C]. intro K. rewrite (i_gran _ _ _ _ I a) in C; [discriminate C|rewrite K; discriminate]. }
    intro z. rewrite HL'. apply HL.
Qed.
End Cmd.
