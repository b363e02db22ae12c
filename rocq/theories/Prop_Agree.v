(** C35: what the host is told does not depend on what belongs to realms. *)
From Coq Require Import NArith ZArith List Bool Lia.
From Verif Require Import Bits S2tte State Granule RecFields Measure RmiRtt RmiRealm Psci RmiRec Rsi RecRun Arch Mmu Machine
  Spec SpecStep SpecAgree Demo Demo2 Demo3 NiFacts.
Import ListNotations.
Local Open Scope N_scope.

(** Every command but RMI_REC_ENTER and every write of the host to its memory
    has the same outcome and the same reply in two machines that differ in realm
    memory, registers, measurements, attestation data and TLB contents only, and
    the machines then still differ in nothing else. *)
Theorem C35_commands_partial : forall c h m m' o, reachable c h m -> agree m m' -> host_op o = true ->
  same_answer (step c h m o) (step c h m' o).
Proof. exact host_answer2. Qed.

(** What a realm does, short of writing the host's memory or exiting, makes no
    such difference. *)
Theorem C35_realm_partial : forall c h m o m' rp, reachable c h m -> realm_op o = true -> step c h m o = RDone m' rp ->
  host_memory_same m m' -> agree m m'.
Proof. exact realm_agree. Qed.

(** So the replies to the host in two histories are the same when the host does
    the same, whatever the realms do in between. *)
Theorem C35_history_partial : forall c h l l' m m' n n', host_sees c h m l n -> host_sees c h m' l' n' ->
  reachable c h m -> reachable c h m' -> agree m m' -> map fst l = map fst l' -> l = l' /\ agree n n'.
Proof. exact sees_same. Qed.

(** The realm of the demonstration with other contents of its page, other
    measurements and its REC with other registers *)
Definition other_rd (d : rdesc) : rdesc :=
  mkRd (rd_state d) (rd_rec_count d) (fun _ => 77) (rd_ctx d) (rd_num_rec_aux d) (rd_algorithm d) (rd_pmu_enabled d) (rd_pmu_num_ctrs d) (rd_simd d) (rd_rpv d).
Definition other_state (m : mstate) : mstate :=
  set_m_gr (set_m_gr (set_m_gr m (gr 9) (mkG DATA 0 (CW (fun i => i * i))))
    (gr 0) (mkG (g_state (m_gr m (gr 0))) (g_ref (m_gr m (gr 0))) (CRd (other_rd (rd_of m (gr 0))))))
    (gr 15) (mkG (g_state (m_gr m (gr 15))) (g_ref (m_gr m (gr 15))) (CRec (set_pc (set_reg (rec_of m (gr 15)) 7 1234) 5678))).

Lemma other_agree : forall m d r, realm m (gr 0) d -> rec_is m (gr 15) r -> r_psci_pending r = false -> g_state (m_gr m (gr 9)) = DATA ->
  g_ref (m_gr m (gr 9)) = 0 -> agree m (other_state m).
Proof.
  intros m d r (S0 & M0) (S15 & M15) P S9 R9. unfold other_state.
  set (m1 := set_m_gr m (gr 9) _). set (m2 := set_m_gr m1 _ _).
  assert (A1 : agree m m1) by (apply agree_set; split; [exact S9|split; [exact R9|left; exact S9]]).
  assert (A2 : agree m1 m2).
  { apply agree_set. change (m_gr m1 (gr 0)) with (m_gr m (gr 0)). split; [reflexivity|]. split; [reflexivity|]. right. right.
    unfold rd_of. rewrite M0. reflexivity. }
  assert (A3 : agree m2 (set_m_gr m2 (gr 15) (mkG (g_state (m_gr m (gr 15))) (g_ref (m_gr m (gr 15))) (CRec (set_pc (set_reg (rec_of m (gr 15)) 7 1234) 5678))))).
  { apply agree_set. change (m_gr m2 (gr 15)) with (m_gr m (gr 15)). split; [reflexivity|]. split; [reflexivity|]. right. right.
    unfold rec_of. rewrite M15. split; [reflexivity|]. intros K. rewrite P in K. discriminate K. }
  eapply agree_trans; [exact A1|]. eapply agree_trans; [exact A2|exact A3].
Qed.

(** RMI_DATA_DESTROY of the page that differs *)
Definition destroy9 : op := OCmd 1 (KDataDestroy (gr 0) 0).
Definition differs (m m' : mstate) (rp : reply) : bool :=
  succ rp && is_rd_b m (gr 0) && is_rec_b m (gr 15) && negb (r_psci_pending (rec_of m (gr 15))) &&
  gstate_eqb (g_state (m_gr m (gr 9))) DATA && (g_ref (m_gr m (gr 9)) =? 0) &&
  match g_mem (m_gr m (gr 9)) with CW f => f 1 =? 4711 | _ => false end.
Lemma differs_agree : forall m n rp, reachable dcfg dhw m -> step dcfg dhw m destroy9 = RDone n rp -> differs m n rp = true ->
  exists m' n' r, agree m m' /\ g_mem (m_gr m' (gr 9)) <> g_mem (m_gr m (gr 9)) /\
  step dcfg dhw m destroy9 = RDone n (Reply r) /\ x0 r = RMI_SUCCESS /\
  step dcfg dhw m' destroy9 = RDone n' (Reply r) /\ agree n n'.
Proof.
  intros m n rp R S Q. unfold differs in Q. facts Q.
  assert (A : agree m (other_state m)).
  { eapply other_agree; [apply realm_b; eassumption|apply rec_b; eassumption|assumption| |assumption].
    destruct (g_state (m_gr m (gr 9))); try discriminate; reflexivity. }
  pose proof (C35_commands_partial dcfg dhw m (other_state m) destroy9 R A eq_refl) as K.
  rewrite S in K. destruct (succ_reply rp) as (E1 & E2); [assumption|].
  destruct (step dcfg dhw (other_state m) destroy9) as [n' rp'| | | |] eqn:S'; try contradiction. destruct K as (<- & K).
  exists (other_state m), n', (res_of rp). rewrite <- E1. split; [exact A|]. split; [|auto].
  intros F. change (g_mem (m_gr (other_state m) (gr 9))) with (CW (fun i => i * i)) in F. rewrite <- F in *. discriminate.
Qed.
Example C35_commands_example : exists m m' n n' r, reachable dcfg dhw m /\ agree m m' /\ g_mem (m_gr m' (gr 9)) <> g_mem (m_gr m (gr 9)) /\
  step dcfg dhw m (OCmd 1 (KDataDestroy (gr 0) 0)) = RDone n (Reply r) /\ x0 r = RMI_SUCCESS /\
  step dcfg dhw m' (OCmd 1 (KDataDestroy (gr 0) 0)) = RDone n' (Reply r) /\ agree n n'.
Proof.
  assert (X : staged d_base destroy9 differs = true) by (vm_compute; reflexivity).
  destruct (stage _ _ _ X) as (n & rp & (R & _ & S) & Q). clear X. exists (after d_base).
  revert R S Q. generalize (after d_base). intros m R S Q. destruct (differs_agree m n rp R S Q) as (m' & n' & r & H). exists m', n, n', r. auto.
Qed.

(** Where a store goes *)
Definition store_private (m : mstate) (p ipa : N) : bool :=
  match running_rec m p with
  | Some (_, r) => match rec_xlat (m_gr m) r ipa with XOk _ _ oa _ _ => negb (gstate_eqb (g_state (m_gr m (page_of oa))) NS) | XFault => false end
  | None => false
  end.
Lemma store_memory : forall c h m p ipa v m' rp, step c h m (OStore p ipa v) = RDone m' rp -> store_private m p ipa = true -> host_memory_same m m'.
Proof.
  intros c h m p ipa v m' rp E H. cbn [step] in E. unfold store_private in H. destruct (running_rec m p) as [[ru r]|]; [|discriminate H].
  destruct (rec_xlat (m_gr m) r ipa); try discriminate H. destruct (gpt_ok _ _); [|discriminate E]. destruct (g_mem _); try discriminate E.
  injection E as <- <-. intros a N. cbn. unfold upd at 1. destruct (a =? page_of oa) eqn:Z; [|reflexivity]. apply N.eqb_eq in Z. subst a. rewrite N in H. discriminate H.
Qed.

(** The realm stores 1 or 2 to its page before the host reads an entry of its tables and takes the page *)
Definition d_pre : list op := d_build ++ [d_enter].
Definition d_host : list op := [OCmd 1 (KRttReadEntry (gr 0) 0 3); OHost (gr 101) 0 5; OCmd 1 (KDataDestroy (gr 0) 0)].
Fixpoint host_part (m : mstate) (l : list op) : option (list (op * reply) * mstate) :=
  match l with
  | [] => Some ([], m)
  | o :: l => match step dcfg dhw m o with
              | RDone m1 r => match host_part m1 l with Some (k, m2) => Some ((o, r) :: k, m2) | None => None end
              | _ => None
              end
  end.
Lemma host_part_sees : forall l m k n, host_part m l = Some (k, n) -> forallb host_op l = true -> forallb op_okb l = true -> host_sees dcfg dhw m k n /\ map fst k = l.
Proof.
  induction l as [|o l IH]; intros m k n E H O; cbn [host_part] in E; [injection E as <- <-; split; [constructor|reflexivity]|].
  destruct (step dcfg dhw m o) as [m1 r| | | |] eqn:S; try discriminate E. destruct (host_part m1 l) as [[k1 m2]|] eqn:E1; [|discriminate E].
  injection E as <- <-. cbn [forallb] in H, O. apply andb_prop in H. destruct H as [H1 H2]. apply andb_prop in O. destruct O as [O1 O2].
  destruct (IH _ _ _ E1 H2 O2) as (I1 & I2). split; [|cbn; congruence]. econstructor; [exact H1| |exact S|exact I1].
  assert (K : forallb op_okb [o] = true) by (cbn; rewrite O1; reflexivity). pose proof (op_ok_dec [o] K) as Z. inversion Z. assumption.
Qed.

Example C35_history_example : exists m l n n', reachable dcfg dhw m /\ host_sees dcfg dhw m l n /\ host_sees dcfg dhw m l n' /\
  map fst l = d_host /\ Forall (fun z => match snd z with Reply r => x0 r = RMI_SUCCESS | _ => True end) l.
Proof.
  assert (X : forall v, v = 1 \/ v = 2 -> staged d_pre (OStore 0 8 v) (fun m m1 rp => store_private m 0 8 &&
    match host_part m1 d_host with
    | Some (k, _) => forallb (fun z => match snd z with Reply r => x0 r =? RMI_SUCCESS | _ => true end) k
    | None => false
    end) = true) by (intros v [-> | ->]; vm_compute; reflexivity).
  assert (Y : forall v, v = 1 \/ v = 2 -> exists k n, host_sees dcfg dhw (after d_pre) k n /\ map fst k = d_host /\
    Forall (fun z => match snd z with Reply r => x0 r = RMI_SUCCESS | _ => True end) k).
  { intros v V. destruct (stage _ _ _ (X v V)) as (m1 & rp & (R & _ & S) & Q). apply andb_prop in Q. destruct Q as [Q1 Q2].
    destruct (host_part m1 d_host) as [[k n]|] eqn:H; [|discriminate Q2]. destruct (host_part_sees _ _ _ _ H eq_refl eq_refl) as (H1 & H2).
    exists k, n. split; [|split; [exact H2|]].
    - refine (hs_realm _ _ _ (OStore 0 8 v) _ _ _ _ eq_refl S _ H1). eapply store_memory; eassumption.
    - apply Forall_forall. intros [o r] I. rewrite forallb_forall in Q2. specialize (Q2 _ I). cbn in Q2 |- *. destruct r; auto. apply N.eqb_eq, Q2. }
  assert (R : reachable dcfg dhw (after d_pre)) by (destruct (stage _ _ _ (X 1 (or_introl eq_refl))) as (? & ? & (R & _) & _); exact R).
  destruct (Y 1 (or_introl eq_refl)) as (k & n & H1 & H2 & H3). destruct (Y 2 (or_intror eq_refl)) as (k' & n' & H1' & H2' & _).
  destruct (C35_history_partial dcfg dhw k k' (after d_pre) (after d_pre) n n' H1 H1' R R (agree_refl _)) as (<- & _); [congruence|].
  exists (after d_pre), k, n, n'. auto.
Qed.

Definition agree_theorems := (@C35_commands_partial, @C35_realm_partial, @C35_history_partial, @C35_commands_example, @C35_history_example).
Print Assumptions agree_theorems.
