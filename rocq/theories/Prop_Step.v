(** C05, C08, C09, C13, C15, C17, C18: what one step from a reachable state can do.
    The vocabulary is in Spec.v and SpecStep.v. *)
From Coq Require Import NArith ZArith List Bool.
From Verif Require Import Bits S2tte State Granule RecFields Measure RmiRtt RmiRealm Psci RmiRec Gic Esr Rsi RecRun Arch Mmu Machine
  Spec SpecStep Demo Demo2 Own Step Step2.
Import ListNotations.
Local Open Scope N_scope.

(* ------------------------------------------------------------------ *)
(** * C05 *)

(** When the state of a granule changes, then by one of the commands listed in
    [moves], which succeeds and names the granule *)
Theorem C05_moves : forall c h m o m' rp a, next c h m o m' rp -> g_state (m_gr m' a) <> g_state (m_gr m a) ->
  moves m o rp a (g_state (m_gr m a)) (g_state (m_gr m' a)).
Proof. exact moved. Qed.

(** and when one of these commands succeeds the granule moves like this. *)
Theorem C05_states : forall c h m o m' rp a s s', next c h m o m' rp -> moves m o rp a s s' ->
  g_state (m_gr m a) = s /\ g_state (m_gr m' a) = s'.
Proof. exact moves_states. Qed.

Theorem C05_edges : forall c h m o m' rp a, next c h m o m' rp -> g_state (m_gr m' a) <> g_state (m_gr m a) ->
  g_state (m_gr m a) = DELEGATED \/ g_state (m_gr m' a) = DELEGATED.
Proof. exact edges. Qed.

Theorem C05_to_host : forall c h m o m' rp a, next c h m o m' rp -> g_state (m_gr m a) <> NS -> g_state (m_gr m' a) = NS ->
  exists e r, done o rp (KGranuleUndelegate e a) r /\ g_state (m_gr m a) = DELEGATED.
Proof. exact to_host. Qed.

Definition d_undelegate : op := OCmd 1 (KGranuleUndelegate true (gr 70)).
Definition d_rec_destroy : op := OCmd 1 (KRecDestroy (gr 15)).
Example C05_example : next dcfg dhw d_state d_undelegate (after (d_base ++ [d_undelegate])) (last_reply (d_base ++ [d_undelegate])) /\
  g_state (m_gr d_state (gr 70)) = DELEGATED /\ g_state (m_gr (after (d_base ++ [d_undelegate])) (gr 70)) = NS.
Proof. split; [apply (good_next d_base); vm_compute; reflexivity|]. vm_compute. auto. Qed.
Example C05_example_rec : exists m', next dcfg dhw d_state d_rec_destroy m' (last_reply (d_base ++ [d_rec_destroy])) /\
  g_state (m_gr d_state (gr 40)) = REC_AUX /\ g_state (m_gr m' (gr 40)) = DELEGATED.
Proof. eexists. split; [apply (good_next d_base); vm_compute; reflexivity|]. vm_compute. auto. Qed.

(* ------------------------------------------------------------------ *)
(** * C08 *)

(** REALM_DESTROY succeeds only on a realm without RECs, whose only tables are
    the starting ones and which has no memory. *)
Theorem C08_realm : forall c h m o m' rp rd r, next c h m o m' rp -> done o rp (KRealmDestroy rd) r -> exists d, realm m rd d /\
  (forall a rc, rec_is m a rc -> r_g_rd rc <> rd) /\
  (forall l t b, table_of (m_gr m) (rd_ctx d) l t b -> exists k, k < num_root_rtts (rd_ctx d) /\ b = g_rtt (rd_ctx d) + k * 4096) /\
  (forall ipa, page_granule (page_at (m_gr m) (rd_ctx d) ipa) = None).
Proof. exact destroyed_realm. Qed.

(** REC_DESTROY succeeds only on a REC that no CPU executes. *)
Theorem C08_rec : forall c h m o m' rp a r, next c h m o m' rp -> done o rp (KRecDestroy a) r ->
  (exists rc, rec_is m a rc) /\ forall p, ~ executes m p a.
Proof. exact destroyed_rec. Qed.

(** RTT_DESTROY destroys the table of the level at this address, which it names
    in x1, only when no descriptor in it is a table or holds memory. *)
Theorem C08_rtt : forall c h m o m' rp rd ipa ul r, next c h m o m' rp -> done o rp (KRttDestroy rd ipa ul) r -> exists d, realm m rd d /\
  table_of (m_gr m) (rd_ctx d) (sgn64 ul) (ipa / 2 ^ arch_lsb (sgn64 ul - 1)) (x1 r) /\
  live_count (m_gr m) (enable_lpa2 (rd_ctx d)) (sgn64 ul) (x1 r) = 0.
Proof. exact destroyed_rtt. Qed.

(** A third realm is made and destroyed, an unused REC is, and a table *)
Definition d_rtt_destroy : op := OCmd 1 (KRttDestroy (gr 0) (2 ^ 32) 2).
Example C08_example :
  (exists m' rp r, next dcfg dhw (after (d_base ++ [OCmd 1 (KRealmCreate (Some (mkRparams 0 33 0 1 1 0 0 79 3 (gr 72) 1 1)) (gr 71) (gr 100))]))
     (OCmd 1 (KRealmDestroy (gr 71))) m' rp /\ done (OCmd 1 (KRealmDestroy (gr 71))) rp (KRealmDestroy (gr 71)) r) /\
  (exists m' rp r, next dcfg dhw d_state d_rec_destroy m' rp /\ done d_rec_destroy rp (KRecDestroy (gr 15)) r) /\
  (exists m' rp r, next dcfg dhw d_state d_rtt_destroy m' rp /\ done d_rtt_destroy rp (KRttDestroy (gr 0) (2 ^ 32) 2) r /\ x1 r = gr 8).
Proof.
  split; [|split].
  - do 3 eexists. split; [apply good_next; vm_compute; reflexivity|]. apply good_done. vm_compute. reflexivity.
  - do 3 eexists. split; [apply (good_next d_base); vm_compute; reflexivity|]. apply good_done. vm_compute. reflexivity.
  - do 3 eexists. split; [apply (good_next d_base); vm_compute; reflexivity|]. split; [apply good_done; vm_compute; reflexivity|].
    vm_compute. reflexivity.
Qed.

(** The calls really are rejected when the object is in use. *)
Example C08_example_busy :
  map (fun k => match last_reply (d_base ++ [OCmd 1 k]) with Reply r => x0 r =? RMI_SUCCESS | _ => true end)
    [KRealmDestroy (gr 0); KRecDestroy (gr 14); KRttDestroy (gr 0) 0 3] = [false; false; false].
Proof. vm_compute. reflexivity. Qed.

(* ------------------------------------------------------------------ *)
(** * C09 *)

(** The claim is false for one command: PSCI_COMPLETE with the status "denied" for a
    CPU that is on is an error, and yet completes the request of the calling REC. *)
Theorem C09_refuted : exists c h m o m' r ca rc rc', next c h m o m' (Reply r) /\ x0 r = RMI_ERROR_INPUT /\
  rec_is m ca rc /\ rec_is m' ca rc' /\ r_psci_pending rc = true /\ r_psci_pending rc' = false.
Proof.
  exists dcfg, dhw, (after d_on), (OCmd 1 (KPsciComplete (gr 14) (gr 15) PSCI_RETURN_DENIED)).
  exists (after (d_on ++ [OCmd 1 (KPsciComplete (gr 14) (gr 15) PSCI_RETURN_DENIED)])).
  exists (last_res (d_on ++ [OCmd 1 (KPsciComplete (gr 14) (gr 15) PSCI_RETURN_DENIED)])), (gr 14).
  exists (rec_of (after d_on) (gr 14)), (rec_of (after (d_on ++ [OCmd 1 (KPsciComplete (gr 14) (gr 15) PSCI_RETURN_DENIED)])) (gr 14)).
  split.
  - assert (E : last_reply (d_on ++ [OCmd 1 (KPsciComplete (gr 14) (gr 15) PSCI_RETURN_DENIED)]) =
                Reply (last_res (d_on ++ [OCmd 1 (KPsciComplete (gr 14) (gr 15) PSCI_RETURN_DENIED)]))) by (vm_compute; reflexivity).
    rewrite <- E. apply good_next. vm_compute. reflexivity.
  - split; [vm_compute; reflexivity|]. split; [apply rec_b; vm_compute; reflexivity|]. split; [apply rec_b; vm_compute; reflexivity|].
    vm_compute. auto.
Qed.

(** Everything else is as claimed, and in that case only the calling REC changes. *)
Theorem C09_failing_partial : forall c h m p k m' r, next c h m (OCmd p k) m' (Reply r) -> x0 r <> RMI_SUCCESS -> same m m' \/
  exists ca ta rc rt, k = KPsciComplete ca ta PSCI_RETURN_DENIED /\ rec_is m ca rc /\ rec_is m ta rt /\
    x0 r = RMI_ERROR_INPUT /\ r_psci_pending rc = true /\ (exists rc', rec_is m' ca rc' /\ r_psci_pending rc' = false) /\
    (r_runnable rt = true \/ exists q, executes m q ta) /\
    (forall a, a <> ca -> m_gr m' a = m_gr m a) /\ (forall v, m_vmids m' v = m_vmids m v) /\ m_tlb m' = m_tlb m /\ m_cpu m' = m_cpu m /\ (forall a, m_att m' a = m_att m a).
Proof. exact fail_same. Qed.

Definition d_bad : op := OCmd 1 (KDataCreate true (gr 1) (gr 9) 0 (gr 101) 0).
Example C09_example : exists m' r, next dcfg dhw d_state d_bad m' (Reply r) /\ x0 r = RMI_ERROR_INPUT.
Proof.
  exists (after (d_base ++ [d_bad])), (last_res (d_base ++ [d_bad])). split; [|vm_compute; reflexivity].
  assert (E : last_reply (d_base ++ [d_bad]) = Reply (last_res (d_base ++ [d_bad]))) by (vm_compute; reflexivity).
  rewrite <- E. apply (good_next d_base). vm_compute. reflexivity.
Qed.

(* ------------------------------------------------------------------ *)
(** * C13 *)

(** Measurement 0 is the initial measurement *)
Theorem C13_frozen : forall c h m o m' rp, next c h m o m' rp -> forall a d d', realm m a d -> realm m' a d' ->
  (rd_state d <> REALM_NEW -> rd_meas d' 0 = rd_meas d 0) /\
  (forall i, 0 < i -> rd_meas d' i <> rd_meas d i -> exists b r, rsi_call m o b r RSI_EXTEND /\ r_g_rd r = a /\ r_regs r 1 = i).
Proof. exact meas_step. Qed.

(** The realm extends measurement 2 *)
Definition d_extend : list op := d_base ++ removelast (d_smc 0xC4000193 2 8 99).
Definition d_extend_smc : op := OExit 0 (mkEv ExcSync (23 * 2 ^ 26) 0 0 no_env) dfin no_tm.
Example C13_example : exists m' rp, next dcfg dhw (after d_extend) d_extend_smc m' rp /\ realm (after d_extend) (gr 0) (rd_of (after d_extend) (gr 0)) /\
  realm m' (gr 0) (rd_of m' (gr 0)) /\ rd_meas (rd_of m' (gr 0)) 2 <> rd_meas (rd_of (after d_extend) (gr 0)) 2.
Proof.
  do 2 eexists. split; [apply (good_next d_extend d_extend_smc); vm_compute; reflexivity|]. split; [apply realm_b; vm_compute; reflexivity|].
  split; [apply realm_b; vm_compute; reflexivity|]. vm_compute. discriminate.
Qed.

(* ------------------------------------------------------------------ *)
(** * C15 *)

Theorem C15_states : forall c h m o m' rp, next c h m o m' rp -> forall a d d', realm m a d -> realm m' a d' -> rd_state d' <> rd_state d ->
  (rd_state d = REALM_NEW /\ rd_state d' = REALM_ACTIVE /\ exists r, done o rp (KRealmActivate a) r) \/
  (rd_state d = REALM_ACTIVE /\ rd_state d' = REALM_SYSTEM_OFF /\ exists b r, (psci_call m o b r PSCI_OFF \/ psci_call m o b r PSCI_RESET) /\ r_g_rd r = a).
Proof. exact state_step. Qed.

(** A realm appears by REALM_CREATE, in the state NEW and without RECs *)
Theorem C15_created : forall c h m o m' rp, next c h m o m' rp -> forall a d', realm m' a d' -> g_state (m_gr m a) <> RD ->
  exists p pa r, done o rp (KRealmCreate (Some p) a pa) r /\ rd_state d' = REALM_NEW /\ rd_rec_count d' = 0 /\
    rd_ctx d' = mkCtx (p_s2sz p) (p_rtt_level_start p) (p_rtt_num_start p) (p_rtt_base p) (p_vmid p) (is_lpa2_requested p).
Proof. exact realm_appears. Qed.

Theorem C15_built_new : forall c h m o m' rp k r rd, next c h m o m' rp -> done o rp k r ->
  match k with KDataCreate _ x _ _ _ _ | KRecCreate _ x _ _ | KRttInitRipas x _ _ | KRealmActivate x => x = rd | _ => False end ->
  exists d, realm m rd d /\ rd_state d = REALM_NEW.
Proof. exact built_new. Qed.

(** A REC is entered only when its realm is ACTIVE, is runnable and runs nowhere else *)
Theorem C15_entered_active : forall c h m p a ra en fi tm m', next c h m (OEnter p a ra en fi tm) m' Entered ->
  executes m' p a /\ (forall q, ~ executes m q a) /\ exists r d, rec_is m a r /\ realm m (r_g_rd r) d /\ rd_state d = REALM_ACTIVE /\ r_runnable r = true.
Proof. exact entered_active. Qed.

(** and a REC that executes is not one of a NEW realm. *)
Theorem C15_running : forall c h m, reachable c h m -> forall p a, executes m p a ->
  exists r d, rec_is m a r /\ realm m (r_g_rd r) d /\ rd_state d <> REALM_NEW.
Proof. exact running. Qed.

(** "A REC executes only while its realm is ACTIVE" would be too much: a REC that runs
    goes on when another REC of its realm turns the system off. *)
Definition d_both : list op :=
  d_base ++ d_smc 0xC4000003 1 64 5 ++
  [OCmd 1 (KPsciComplete (gr 14) (gr 15) 0); d_enter; OEnter 1 (gr 15) (gr 102) (Some denter) dfin no_tm] ++ d_smc 0x84000008 0 0 0.
Theorem C15_executes_off_refuted : exists c h m p a r d, reachable c h m /\ executes m p a /\ rec_is m a r /\ realm m (r_g_rd r) d /\ rd_state d = REALM_SYSTEM_OFF.
Proof.
  exists dcfg, dhw, (after d_both), 1, (gr 15), (rec_of (after d_both) (gr 15)), (rd_of (after d_both) (gr 0)).
  split; [apply good_reach; vm_compute; reflexivity|]. split; [apply executes_b; vm_compute; reflexivity|].
  split; [apply rec_b; vm_compute; reflexivity|].
  assert (E : r_g_rd (rec_of (after d_both) (gr 15)) = gr 0) by (vm_compute; reflexivity). rewrite E.
  split; [apply realm_b; vm_compute; reflexivity|]. vm_compute. reflexivity.
Qed.

Definition d_off : list op := d_base ++ removelast (d_smc 0x84000008 0 0 0).
Example C15_example : exists m' rp, next dcfg dhw (after d_off) d_extend_smc m' rp /\ realm (after d_off) (gr 0) (rd_of (after d_off) (gr 0)) /\
  realm m' (gr 0) (rd_of m' (gr 0)) /\ rd_state (rd_of (after d_off) (gr 0)) = REALM_ACTIVE /\ rd_state (rd_of m' (gr 0)) = REALM_SYSTEM_OFF.
Proof.
  do 2 eexists. split; [apply (good_next d_off d_extend_smc); vm_compute; reflexivity|]. split; [apply realm_b; vm_compute; reflexivity|].
  split; [apply realm_b; vm_compute; reflexivity|]. vm_compute. auto.
Qed.
Example C15_example_activate : exists m' rp r, next dcfg dhw d_state (OCmd 1 (KRealmActivate (gr 1))) m' rp /\
  done (OCmd 1 (KRealmActivate (gr 1))) rp (KRealmActivate (gr 1)) r.
Proof. do 3 eexists. split; [apply (good_next d_base); vm_compute; reflexivity|]. apply good_done. vm_compute. reflexivity. Qed.
Example C15_example_enter : exists m', next dcfg dhw d_later d_enter m' Entered.
Proof.
  eexists. assert (E : last_reply ((d_build ++ d_run ++ d_exit) ++ [d_enter]) = Entered) by (vm_compute; reflexivity).
  rewrite <- E. apply good_next. vm_compute. reflexivity.
Qed.

(* ------------------------------------------------------------------ *)
(** * C17 *)

Theorem C17_once : forall c h m, reachable c h m -> forall p q a, executes m p a -> executes m q a -> p = q.
Proof. exact one_pe. Qed.

(** While a REC executes it cannot be destroyed, no request of it is completed
    and REC_ENTER fails without effect *)
Theorem C17_busy : forall c h m o m' rp p a, next c h m o m' rp -> executes m p a ->
  (forall r, ~ done o rp (KRecDestroy a) r) /\ (forall t s r, ~ done o rp (KPsciComplete a t s) r) /\ (forall rd b t r, ~ done o rp (KRttSetRipas rd a b t) r) /\
  (forall q ra en fi tm, o = OEnter q a ra en fi tm -> exists code, rp = Exited code None /\ code <> RMI_SUCCESS /\ same m m').
Proof. exact busy_rec. Qed.

Definition d_reenter : op := OEnter 1 (gr 14) (gr 102) (Some denter) dfin no_tm.
Example C17_example : executes d_state 0 (gr 14) /\ exists m' rp, next dcfg dhw d_state d_reenter m' rp.
Proof. split; [exact d_executes|]. do 2 eexists. apply (good_next d_base). vm_compute. reflexivity. Qed.

(* ------------------------------------------------------------------ *)
(** * C18 *)

(** REC_CREATE gives the REC the number of its MPIDR, which is the number of
    RECs created before. *)
Theorem C18_created : forall c h m o m' rp p rd a pa r, next c h m o m' rp -> done o rp (KRecCreate (Some p) rd a pa) r ->
  exists d d' rc, realm m rd d /\ realm m' rd d' /\ rec_is m' a rc /\ r_g_rd rc = rd /\ r_idx rc = host_index (rp_mpidr p) /\ r_idx rc = rd_rec_count d /\
    rd_rec_count d' = rd_rec_count d + 1.
Proof. exact created_rec. Qed.

Definition d_room : list op := d_base ++ map (OCmd 1) (delegates 80 16).
Definition d_rec2 : op := OCmd 1 (KRecCreate (Some (drec 128 80 1 1)) (gr 1) (gr 19) (gr 100)).
Example C18_example_create : exists m' rp r, next dcfg dhw (after d_room) d_rec2 m' rp /\
  done d_rec2 rp (KRecCreate (Some (drec 128 80 1 1)) (gr 1) (gr 19) (gr 100)) r.
Proof. do 3 eexists. split; [apply good_next; vm_compute; reflexivity|]. apply good_done. vm_compute. reflexivity. Qed.

(** All theorems of this file at once *)
Definition step_theorems :=
  (@C05_moves, @C05_states, @C05_edges, @C05_to_host, @C08_realm, @C08_rec, @C08_rtt, @C09_refuted, @C09_failing_partial, @C13_frozen, @C15_states, @C15_created, @C15_built_new, @C15_entered_active, @C15_running, @C15_executes_off_refuted, @C17_once, @C17_busy, @C18_created).
Print Assumptions step_theorems.
