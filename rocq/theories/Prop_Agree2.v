(** C35 with RMI_REC_ENTER and the exits of realms: what the host is told does
    not depend on what belongs to realms. *)
From Coq Require Import NArith ZArith List Bool Lia.
From Verif Require Import Bits S2tte State Granule RecFields Measure RmiRtt RmiRealm Psci RmiRec Gic Esr Rsi RecRun Arch Mmu Machine
  Spec SpecStep SpecAgree SpecAgree2 Demo Demo2 Demo3 NiFacts NiExit NiOut Prop_Agree.
Import ListNotations.
Local Open Scope N_scope.

(** Every command, RMI_REC_ENTER included, and every write of the host to its
    memory has the same outcome in two machines that differ in secrets only:
    both stop, or both give the same reply and then still differ in secrets only. *)
Theorem C35_commands : forall c h m m' o, reachable c h m -> reachable c h m' -> agree_rest m m' -> host_act o = true -> op_ok o ->
  same_outcome (step c h m o) (step c h m' o).
Proof. exact outcome_same. Qed.

(** In two histories in which the host does the same and the RECs that return
    make the same known, the host gets the same replies, whatever the realms do. *)
Theorem C35_history : forall c h l l' m m' n n', history c h m l n -> history c h m' l' n' ->
  reachable c h m -> reachable c h m' -> agree_rest m m' -> Forall2 same_event l l' ->
  Forall2 same_reply l l' /\ agree_rest n n'.
Proof. exact history_same. Qed.

(** What two such machines differ in lies in granules of realms: the host's
    memory, delegated granules and the tables are the same in both. *)
Theorem C35_where : forall c h m m' a, reachable c h m -> agree m m' -> realm_owned (g_state (m_gr m a)) = false ->
  exists f f', g_mem (m_gr m a) = CW f /\ g_mem (m_gr m' a) = CW f' /\ forall i, f i = f' i.
Proof. exact secrets_where. Qed.

(** ** A history of the demonstration in which only secrets differ *)

(** Stores of a realm to its own memory and changes of its registers *)
Definition quiet (m : mstate) (o : op) : bool :=
  match o with
  | OStore p ipa _ => store_private m p ipa
  | ORegs p _ _ _ _ _ => match m_cpu m p with Some ru => negb (gstate_eqb (g_state (m_gr m (ru_rec ru))) NS) | None => false end
  | _ => false
  end.
Fixpoint play (m : mstate) (l : list op) : option (list seen * mstate) :=
  match l with
  | [] => Some ([], m)
  | o :: l =>
      match step dcfg dhw m o with
      | RDone m1 rp =>
          match play m1 l with
          | Some (k, n) =>
              if host_act o then Some (Asked o rp :: k, n)
              else if quiet m o then Some (k, n)
              else match o, rp with
                   | OExit p _ _ _, Exited _ _ =>
                       match m_cpu m p with
                       | Some ru => let r := rec_of m1 (ru_rec ru) in
                           if is_rec_b m1 (ru_rec ru) && is_rd_b m1 (r_g_rd r) then Some (Left p (ru_rec ru) r (rd_of m1 (r_g_rd r)) :: k, n) else None
                       | None => None
                       end
                   | _, _ => None
                   end
          | None => None
          end
      | _ => None
      end
  end.
Lemma quiet_memory : forall c h m o m' rp, step c h m o = RDone m' rp -> quiet m o = true -> host_memory_same m m' /\ realm_act o rp = true.
Proof.
  intros c h m o m' rp E Q. destruct o; try discriminate Q; (split; [|reflexivity]).
  - intros a N. cbn [step] in E. unfold running_rec in E. cbn [quiet] in Q. destruct (m_cpu m p) as [ru|]; [|discriminate Q].
    destruct (g_mem (m_gr m (ru_rec ru))); try discriminate E. destruct (el10_mode pstate); [|discriminate E]. injection E as <- <-.
    cbn. unfold upd. destruct (N.eqb_spec a (ru_rec ru)) as [->|]; [|reflexivity]. rewrite N in Q. discriminate Q.
  - eapply store_memory; eassumption.
Qed.
Lemma play_history : forall l m k n, play m l = Some (k, n) -> forallb op_okb l = true -> history dcfg dhw m k n.
Proof.
  induction l as [|o l IH]; intros m k n E O; cbn [play] in E; [injection E as <- <-; constructor|].
  destruct (step dcfg dhw m o) as [m1 r| | | |] eqn:S; try discriminate E. destruct (play m1 l) as [[k1 m2]|] eqn:E1; [|discriminate E].
  cbn [forallb] in O. apply andb_prop in O. destruct O as [O1 O2]. pose proof (IH _ _ _ E1 O2) as H.
  assert (OK : op_ok o). { assert (K : forallb op_okb [o] = true) by (cbn; rewrite O1; reflexivity). pose proof (op_ok_dec [o] K) as Z. inversion Z. assumption. }
  destruct (host_act o) eqn:HA; [injection E as <- <-; econstructor; eassumption|].
  destruct (quiet m o) eqn:Q; [injection E as <- <-; destruct (quiet_memory _ _ _ _ _ _ S Q); eapply hy_realm; eassumption|].
  destruct o; try discriminate E. destruct r; try discriminate E. destruct (m_cpu m p) as [ru|] eqn:Ep; [|discriminate E].
  destruct (is_rec_b m1 (ru_rec ru) && is_rd_b m1 (r_g_rd (rec_of m1 (ru_rec ru)))) eqn:B; [|discriminate E]. apply andb_prop in B. destruct B as [B1 B2].
  injection E as <- <-. eapply hy_left; [exact OK|exact S|exact Ep|apply rec_b, B1|apply realm_b, B2|exact H].
Qed.

Definition data (e : seen) := match e with Asked o _ => inl o | Left p a r d => inr (p, a, rec_shown r, rd_state d) end.
Lemma data_same : forall k k', map data k = map data k' -> Forall2 same_event k k'.
Proof.
  induction k as [|e k IH]; intros [|e' k'] E; try discriminate E; [constructor|]. injection E as E1 E2. constructor; [|apply IH, E2].
  destruct e, e'; cbn [data] in E1; try discriminate E1; cbn [same_event].
  - injection E1 as ->. reflexivity.
  - assert (X : forall A B (x y : B), @inr A B x = inr y -> x = y) by (intros ? ? ? ? Z; injection Z; auto). apply X in E1.
    pose proof (f_equal (fun z => fst (fst (fst z))) E1) as A1. pose proof (f_equal (fun z => snd (fst (fst z))) E1) as A2.
    pose proof (f_equal (fun z => snd (fst z)) E1) as A3. pose proof (f_equal snd E1) as A4. auto.
Qed.

(** The REC keeps a secret [v] in its page and in a register, is interrupted,
    entered again, makes a host call, and is entered again.  The host also gives
    other commands. *)
Definition story (v : N) : list op :=
  [OStore 0 8 v; ORegs 0 (fun _ => v) v 64 5 (fun _ => 0)] ++ d_exit ++
  [OCmd 1 (KRttReadEntry (gr 0) 0 3); d_enter;
   ORegs 0 (fun i => match i with 0 => 0xC4000199 | 1 => 4096 | _ => v end) v 64 5 (fun _ => 0); OExit 0 (mkEv ExcSync (23 * 2 ^ 26 + 2 ^ 25) 0 0 no_env) dfin no_tm;
   d_enter; ORegs 0 (fun _ => v + 7) v 64 5 (fun _ => 0)] ++ d_exit ++ [OCmd 1 (KDataDestroy (gr 0) 0)].
Definition word9 (m : mstate) : N := match g_mem (m_gr m (gr 9)) with CW f => f 1 | _ => 0 end.
Definition reg7 (m : mstate) : N := r_regs (rec_of m (gr 14)) 7.
Definition asked_ok (k : list seen) : bool :=
  forallb (fun e => match e with Asked (OEnter _ _ _ _ _ _) Entered => true | Asked _ (Reply r) => x0 r =? RMI_SUCCESS | Asked _ _ => false | Left _ _ _ _ => true end) k.

Lemma play_reach : forall l m k n, play m l = Some (k, n) -> forallb op_okb l = true -> reachable dcfg dhw m -> reachable dcfg dhw n.
Proof.
  induction l as [|o l IH]; intros m k n E O R; cbn [play] in E; [injection E as <- <-; exact R|].
  destruct (step dcfg dhw m o) as [m1 r| | | |] eqn:S; try discriminate E. destruct (play m1 l) as [[k1 m2]|] eqn:E1; [|discriminate E].
  cbn [forallb] in O. apply andb_prop in O. destruct O as [O1 O2].
  assert (OK : op_ok o). { assert (K : forallb op_okb [o] = true) by (cbn; rewrite O1; reflexivity). pose proof (op_ok_dec [o] K) as Z. inversion Z. assumption. }
  assert (X : n = m2).
  { destruct (host_act o); [injection E as _ <-; reflexivity|]. destruct (quiet m o); [injection E as _ <-; reflexivity|]. destruct o; try discriminate E. destruct r; try discriminate E.
    destruct (m_cpu m p) as [ru|]; [|discriminate E]. destruct (is_rec_b m1 (ru_rec ru) && _); [|discriminate E]. injection E as _ <-. reflexivity. }
  subst n. eapply IH; [exact E1|exact O2|]. eapply reach_next; eassumption.
Qed.
Lemma rest_refl : forall m, agree_rest m m.
Proof. intros m. split; [apply agree_refl|]. intros a r r' [_ H] [_ H'] _. rewrite H in H'. injection H' as ->. reflexivity. Qed.

Definition enters (x : result) : bool := match x with RDone _ Entered => true | _ => false end.
Lemma stories : match play (after d_pre) (story 1), play (after d_pre) (story 2) with
  | Some (k, n), Some (k', n') =>
      map data k = map data k' /\
      (asked_ok k && (N.of_nat (length k) =? 7) && (reg7 n =? 8) && (reg7 n' =? 9) && enters (step dcfg dhw n d_enter)) = true
  | _, _ => False
  end.
Proof. vm_compute. split; reflexivity. Qed.

(** The secrets differ, the replies do not; then the host enters the REC once more *)
Example C35_enter_example : exists m l l' n n', reachable dcfg dhw m /\ history dcfg dhw m l n /\ history dcfg dhw m l' n' /\
  Forall2 same_event l l' /\ Forall2 same_reply l l' /\ asked_ok l = true /\ length l = 7%nat /\
  reachable dcfg dhw n /\ reachable dcfg dhw n' /\ agree_rest n n' /\ reg7 n = 8 /\ reg7 n' = 9 /\
  enters (step dcfg dhw n d_enter) = true /\ enters (step dcfg dhw n' d_enter) = true.
Proof.
  pose proof stories as X. assert (O : forallb op_okb (story 1) && forallb op_okb (story 2) && forallb op_okb d_pre = true) by (vm_compute; reflexivity).
  apply andb_prop in O. destruct O as [O O3]. apply andb_prop in O. destruct O as [O1 O2].
  assert (R : reachable dcfg dhw (after d_pre)) by (apply after_reachable, O3). revert X R. generalize (after d_pre). intros m X R.
  destruct (play m (story 1)) as [[k n]|] eqn:E1; [|contradiction]. destruct (play m (story 2)) as [[k' n']|] eqn:E2; [|contradiction].
  destruct X as [X Q]. apply data_same in X. pose proof (play_reach _ _ _ _ E1 O1 R) as Rn. pose proof (play_reach _ _ _ _ E2 O2 R) as Rn'.
  apply play_history in E1; [|exact O1]. apply play_history in E2; [|exact O2]. facts Q.
  destruct (C35_history _ _ _ _ _ _ _ _ E1 E2 R R (rest_refl _) X) as [Y Z].
  pose proof (C35_commands _ _ _ _ d_enter Rn Rn' Z eq_refl Logic.I) as C.
  exists m, k, k', n, n'. repeat (split; [first [assumption|lia]|]).
  destruct (step dcfg dhw n d_enter) as [? [| | |]| | | |]; try discriminate. destruct (step dcfg dhw n' d_enter) as [? rp| | | |]; try contradiction.
  destruct C as [C _]. cbn [reply_same] in C. subst rp. reflexivity.
Qed.

(** The host's memory in these machines *)
Example C35_where_example : exists m m', reachable dcfg dhw m /\ agree m m' /\ g_mem (m_gr m (gr 9)) <> g_mem (m_gr m' (gr 9)) /\
  realm_owned (g_state (m_gr m (gr 101))) = false /\ realm_owned (g_state (m_gr m (gr 2))) = false.
Proof.
  assert (X : staged d_pre (OStore 0 8 9) (fun m m1 rp => store_private m 0 8 && negb (word9 m =? word9 m1) &&
    negb (realm_owned (g_state (m_gr m (gr 101)))) && negb (realm_owned (g_state (m_gr m (gr 2))))) = true) by (vm_compute; reflexivity).
  destruct (stage _ _ _ X) as (m1 & rp & (R & _ & S) & Q). clear X. revert R S Q. generalize (after d_pre). intros m R S Q. facts Q.
  exists m, m1. split; [exact R|]. split; [eapply C35_realm_partial; [exact R| |exact S|eapply store_memory; eassumption]; reflexivity|]. split; [|auto].
  intros E. unfold word9 in *. rewrite E in *. match goal with H : (?x =? ?x) = false |- _ => rewrite N.eqb_refl in H; discriminate H end.
Qed.

Definition agree2_theorems := (@C35_commands, @C35_history, @C35_where, @C35_enter_example, @C35_where_example).
Print Assumptions agree2_theorems.
