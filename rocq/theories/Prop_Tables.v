(** C27, C28, C33, C34, C38, C51: single entries of translation tables, the
    parameters of realms, VMIDs, and the conditions under which commands
    succeed.  The vocabulary is in Spec.v, SpecStep.v and SpecTables.v. *)
From Coq Require Import NArith ZArith List Bool.
From Verif Require Import Bits S2tte State Granule RecFields Measure RmiRtt RmiRealm Psci RmiRec Gic Esr Rsi RecRun Arch Mmu Machine
  Spec SpecStep SpecTables Demo Demo2 Tables Tables2 Tables3.
Import ListNotations.
Local Open Scope N_scope.

(** Several commands, each tried in the same state; the results are computed
    together *)
Definition outcomes (m : mstate) (ks : list cmd) : list (option (list N)) :=
  map (fun k => match step dcfg dhw m (OCmd 1 k) with RDone _ (Reply r) => Some [x0 r; x1 r; x2 r; x3 r; x4 r] | _ => None end) ks.
Definition gives (m : mstate) (k : cmd) (v : list N) : Prop :=
  exists m' r, next dcfg dhw m (OCmd 1 k) m' (Reply r) /\ firstn (length v) [x0 r; x1 r; x2 r; x3 r; x4 r] = v.
Fixpoint agree (os : list (option (list N))) (vs : list (list N)) : bool :=
  match os, vs with
  | [], [] => true
  | Some l :: os, v :: vs => (if list_eq_dec N.eq_dec (firstn (length v) l) v then true else false) && agree os vs
  | _, _ => false
  end.
Lemma gives_all : forall m ks vs, reachable dcfg dhw m -> forallb (fun k => op_okb (OCmd 1 k)) ks && agree (outcomes m ks) vs = true -> Forall2 (gives m) ks vs.
Proof.
  intros m ks vs R. revert vs. induction ks as [|k ks IH]; intros vs E; apply andb_prop in E; destruct E as [E A].
  - destruct vs; [constructor|discriminate].
  - cbn [forallb] in E. apply andb_prop in E. destruct E as [E1 E2]. cbn [outcomes map agree] in A.
    destruct (step dcfg dhw m (OCmd 1 k)) as [m0 [|r| |]| | | |] eqn:S; try discriminate A. destruct vs as [|v vs]; [discriminate A|].
    apply andb_prop in A. destruct A as [A1 A2]. destruct (list_eq_dec N.eq_dec _ v) as [Ev|]; [|discriminate A1]. constructor.
    + exists m0, r. split; [|exact Ev]. split; [exact R|]. split; [|exact S]. assert (K : Forall op_ok [OCmd 1 k]).
      { apply op_ok_dec. cbn [forallb]. rewrite andb_true_r. exact E1. }
      inversion K. assumption.
    + apply IH. rewrite E2. exact A2.
Qed.
Ltac tried := apply gives_all; [exact d_state_reachable|vm_compute; reflexivity].

(* ------------------------------------------------------------------ *)
(** * C27 *)

(** RTT_READ_ENTRY changes nothing, succeeds exactly for a level and an aligned
    address that the realm has, and reports the descriptor at which the walk to
    that level ends. *)
Theorem C27_read : forall c h m p rd ipa ul m' r, next c h m (OCmd p (KRttReadEntry rd ipa ul)) m' (Reply r) ->
  same m m' /\
  (x0 r = 0 /\ (exists d a l w, realm m rd d /\ (s2_sl (rd_ctx d) <= sgn64 ul <= 3)%Z /\ starts d ipa (sgn64 ul) /\
     entry_at (m_gr m) (rd_ctx d) ipa (sgn64 ul) = Some (a, l, w) /\ x1 r = level_word l /\ (x2 r, x3 r, x4 r) = describe (enable_lpa2 (rd_ctx d)) l w) \/
   x0 r = 1 /\ ~ exists d, realm m rd d /\ (s2_sl (rd_ctx d) <= sgn64 ul <= 3)%Z /\ starts d ipa (sgn64 ul)).
Proof. exact read_entry. Qed.

(** After RTT_MAP_UNPROTECTED it returns the host's descriptor. *)
Theorem C27_host_descriptor : forall c h m o m1 rp rd ipa ul w r p m2 r2, next c h m o m1 rp -> done o rp (KRttMapUnprotected rd ipa ul w) r ->
  next c h m1 (OCmd p (KRttReadEntry rd ipa ul)) m2 (Reply r2) ->
  x0 r2 = 0 /\ x1 r2 = level_word (sgn64 ul) /\ x2 r2 = 1 /\ x3 r2 = w /\ x4 r2 = 0.
Proof. exact map_read. Qed.

(** Two tables, memory of the realm, an unassigned page, memory of the host, and
    an address that is not aligned *)
Example C27_example : Forall2 (gives d_state)
  [KRttReadEntry (gr 0) 0 1; KRttReadEntry (gr 0) 0 2; KRttReadEntry (gr 0) 4096 3; KRttReadEntry (gr 0) 12288 3;
   KRttReadEntry (gr 0) (2 ^ 32) 3; KRttReadEntry (gr 0) (2 ^ 31) 3; KRttReadEntry (gr 0) 4096 2]
  [[0; 1; 2; gr 6; 0]; [0; 2; 2; gr 7; 0]; [0; 3; 1; gr 10; 1]; [0; 3; 0; 0; 1];
   [0; 2; 1]; [0; 1; 0; 0; 0]; [1]].
Proof. tried. Qed.
Definition d_map : list op := d_base ++ [OCmd 1 (KRttMapUnprotected (gr 0) (2 ^ 32 + 2 ^ 21) 2 (2 ^ 30 + 2 ^ 6 + 4))].
Example C27_host_example : exists m1 rp r m2 r2, next dcfg dhw d_state (OCmd 1 (KRttMapUnprotected (gr 0) (2 ^ 32 + 2 ^ 21) 2 (2 ^ 30 + 2 ^ 6 + 4))) m1 rp /\
  done (OCmd 1 (KRttMapUnprotected (gr 0) (2 ^ 32 + 2 ^ 21) 2 (2 ^ 30 + 2 ^ 6 + 4))) rp (KRttMapUnprotected (gr 0) (2 ^ 32 + 2 ^ 21) 2 (2 ^ 30 + 2 ^ 6 + 4)) r /\
  next dcfg dhw m1 (OCmd 1 (KRttReadEntry (gr 0) (2 ^ 32 + 2 ^ 21) 2)) m2 (Reply r2) /\ x3 r2 = 2 ^ 30 + 2 ^ 6 + 4.
Proof.
  exists (after d_map), (last_reply d_map), (last_res d_map), (after (d_map ++ [OCmd 1 (KRttReadEntry (gr 0) (2 ^ 32 + 2 ^ 21) 2)])).
  exists (last_res (d_map ++ [OCmd 1 (KRttReadEntry (gr 0) (2 ^ 32 + 2 ^ 21) 2)])).
  split; [apply (good_next d_base); vm_compute; reflexivity|]. split; [apply (good_done d_base); vm_compute; reflexivity|].
  assert (E : let l := d_map ++ [OCmd 1 (KRttReadEntry (gr 0) (2 ^ 32 + 2 ^ 21) 2)] in
     good l && match last_reply l with Reply r => x3 r =? 2 ^ 30 + 2 ^ 6 + 4 | _ => false end = true) by (vm_compute; reflexivity).
  cbv zeta in E. apply andb_prop in E. destruct E as [E1 E2]. pose proof (good_next _ _ E1) as K. unfold last_res.
  destruct (last_reply (d_map ++ [OCmd 1 (KRttReadEntry (gr 0) (2 ^ 32 + 2 ^ 21) 2)])) as [|r| |]; try discriminate E2.
  split; [exact K|]. apply N.eqb_eq, E2.
Qed.

(* ------------------------------------------------------------------ *)
(** * C28 *)

(** Unless the arguments are wrong, DATA_DESTROY, RTT_DESTROY and
    RTT_UNMAP_UNPROTECTED return the address to go on from: the address itself if
    its entry is still in use, else the first address whose entry is, in the table
    where the walk ends, or the end of that table. *)
Theorem C28_top : forall c h m p k m' r rd ipa target top, next c h m (OCmd p k) m' (Reply r) -> top_of k r = Some (rd, ipa, target, top) -> x0 r <> 1 ->
  exists d a l w, realm m' rd d /\ entry_at (m_gr m') (rd_ctx d) ipa target = Some (a, l, w) /\
    if unassigned (enable_lpa2 (rd_ctx d)) l w then goes_on (m_gr m') (rd_ctx d) ipa l top else top = ipa.
Proof. exact top_step. Qed.

(** The page at 0 is withdrawn, that at 4096 remains; nothing after 4096; a table
    in use; unprotected memory; nothing from 2 MB on.  The realm has addresses of
    33 bits, but its first table has room for 39 bits, so that the address to go on
    from can be no address of the realm, as the last command shows. *)
Example C28_example : Forall2 (gives d_state)
  [KDataDestroy (gr 0) 0; KDataDestroy (gr 0) 4096; KDataDestroy (gr 0) 8192; KDataDestroy (gr 0) (2 ^ 21);
   KRttDestroy (gr 0) 0 3; KRttUnmapUnprotected (gr 0) (2 ^ 32) 2; KDataDestroy (gr 0) (2 ^ 30); KRttUnmapUnprotected (gr 0) (2 ^ 32 + 2 ^ 30) 1]
  [[0; gr 9; 4096]; [0; gr 10; 2 ^ 21]; [772; 0; 2 ^ 21]; [516; 0; 2 ^ 30]; [772; 0; 0]; [0; 2 ^ 32 + 2 ^ 30]; [260; 0; 2 ^ 32]; [260; 2 ^ 39]].
Proof. tried. Qed.

(* ------------------------------------------------------------------ *)
(** * C33 *)

(** What REALM_CREATE accepts is part of C51.  A new realm is as its parameters
    say, these fit each other and the platform; the lower half of the addresses is
    unassigned and EMPTY, the upper half unassigned memory of the host, the
    descriptors for all addresses are in the first tables, and none of these is
    superfluous. *)
Theorem C33_new : forall c h m o m' rp p rd pa r, next c h m o m' rp -> done o rp (KRealmCreate (Some p) rd pa) r -> exists d, realm m' rd d /\
  rd_ctx d = mkCtx (p_s2sz p) (p_rtt_level_start p) (p_rtt_num_start p) (p_rtt_base p) (p_vmid p) (N.testbit (p_flags p) 0) /\
  params_ok c p /\
  (forall ipa, page_at (m_gr m') (rd_ctx d) ipa =
     if ipa <? 2 ^ (p_s2sz p - 1) then PUnassigned EMPTY else if ipa <? 2 ^ p_s2sz p then PNsUnassigned else POut) /\
  (forall ipa, ipa < 2 ^ p_s2sz p -> p_rtt_base p <= first_desc (rd_ctx d) ipa < p_rtt_base p + p_rtt_num_start p * 4096) /\
  (p_rtt_num_start p - 1) * (512 * 2 ^ arch_lsb (p_rtt_level_start p)) < 2 ^ p_s2sz p <= p_rtt_num_start p * (512 * 2 ^ arch_lsb (p_rtt_level_start p)).
Proof. exact new_realm. Qed.

(** A realm of 33 bits that starts with eight tables of level 2; a start level
    that does not fit; more tables than needed *)
Example C33_example : Forall2 (gives d_state)
  [KRealmCreate (Some (mkRparams 0 33 0 1 1 0 0 79 3 (gr 72) 2 8)) (gr 71) (gr 100);
   KRealmCreate (Some (mkRparams 0 33 0 1 1 0 0 79 3 (gr 72) 3 8)) (gr 71) (gr 100);
   KRealmCreate (Some (mkRparams 0 33 0 1 1 0 0 79 3 (gr 72) 1 8)) (gr 71) (gr 100)]
  [[0]; [1]; [1]].
Proof. tried. Qed.

(* ------------------------------------------------------------------ *)
(** * C34 *)

(** The monitor's walk, started with the lock of the first table, ends at the
    entry of the architecture's walk and holds the lock of its table only. *)
Theorem C34_monitor : forall c h m rd d ipa target, reachable c h m -> realm m rd d -> ipa < 2 ^ ipa_bits (rd_ctx d) -> (s2_sl (rd_ctx d) <= target <= 3)%Z ->
  exists wi w s', run (s2tt_walk_lock_unlock c (rd_ctx d) ipa target)
      (mkS (fun a => a =? g_rtt (rd_ctx d)) (fun _ => false) (m_gr m) (m_vmids m) (m_tlb m)) = Done wi s' /\
    entry_at (m_gr m) (rd_ctx d) ipa target = Some (w_llt wi + 8 * w_index wi, w_level wi, w) /\ w_index wi < 512 /\
    g_state (m_gr m (w_llt wi)) = RTT /\ s_gr s' = m_gr m /\ forall a, s_locks s' a = (a =? w_llt wi).
Proof. exact monitor_walk. Qed.

(** The entry of the last level decides the translation. *)
Theorem C34_translation : forall c h m rd d ipa a l w, reachable c h m -> realm m rd d -> ipa < 2 ^ ipa_bits (rd_ctx d) ->
  entry_at (m_gr m) (rd_ctx d) ipa 3 = Some (a, l, w) ->
  translate (m_gr m) (rd_ctx d) ipa =
  match arch_decode (enable_lpa2 (rd_ctx d)) l w with ALeaf oa ns xn => XOk l w (oa + ipa mod 2 ^ arch_lsb l) ns xn | _ => XFault end /\
  page_at (m_gr m) (rd_ctx d) ipa = page_desc (enable_lpa2 (rd_ctx d)) l w ipa.
Proof. exact entry_translate. Qed.

(** And the hardware, with the register values of the monitor, translates so. *)
Theorem C34_hardware : forall c h m rd d ipa, reachable c h m -> realm m rd d ->
  stage2 (tt_read (m_gr m)) (realm_vttbr (rd_ctx d)) (realm_vtcr c (rd_ctx d)) ipa = translate (m_gr m) (rd_ctx d) ipa.
Proof. exact hardware_walk. Qed.

Example C34_example : realm d_state (gr 0) d1 /\
  (let m := d_state in let d := rd_of m (gr 0) in
   match entry_at (m_gr m) (rd_ctx d) 4099 3, translate (m_gr m) (rd_ctx d) 4099 with
   | Some (a, l, w), XOk l' w' pa ns xn => (a =? gr 7 + 8) && (w =? w') && (pa =? gr 10 + 3)
   | _, _ => false
   end = true).
Proof. split; [exact d_realm1|]. vm_compute. reflexivity. Qed.

(* ------------------------------------------------------------------ *)
(** * C38 *)

(** A VMID is taken exactly if a realm has it. *)
Theorem C38_used : forall c h m, reachable c h m -> forall v, m_vmids m v = true <-> exists rd d, realm m rd d /\ vmid (rd_ctx d) = v.
Proof. exact vmid_used. Qed.

(** It is taken by the creation of a realm with it only and given back by the
    destruction of that realm only. *)
Theorem C38_step : forall c h m o m' rp, next c h m o m' rp -> forall v, m_vmids m' v <> m_vmids m v ->
  (exists p rd pa r, done o rp (KRealmCreate (Some p) rd pa) r /\ p_vmid p = v /\ m_vmids m v = false /\ m_vmids m' v = true) \/
  (exists rd r d, done o rp (KRealmDestroy rd) r /\ realm m rd d /\ vmid (rd_ctx d) = v /\ m_vmids m v = true /\ m_vmids m' v = false).
Proof. exact vmid_step. Qed.

(** With the VMID of another realm, with one that is free, and with one too large *)
Example C38_example : Forall2 (gives d_state)
  (map (fun v => KRealmCreate (Some (mkRparams 0 33 0 1 1 0 0 79 v (gr 72) 1 1)) (gr 71) (gr 100)) [vmid (rd_ctx d2); 3; 2 ^ 16]) [[1]; [0]; [1]].
Proof. tried. Qed.

(* ------------------------------------------------------------------ *)
(** * C51 *)

(** A command succeeds exactly if its conditions hold, and the code it returns
    otherwise names one that does not. *)
Theorem C51_success : forall c h m p k m' r, next c h m (OCmd p k) m' (Reply r) -> listed k = true ->
  (x0 r = 0 <-> ready c m k) /\ (x0 r <> 0 -> refused c m k (x0 r)).
Proof. exact ready_step. Qed.

Example C51_example : Forall2 (gives d_state)
  [KGranuleDelegate true (gr 110); KGranuleDelegate true (gr 70); KGranuleUndelegate true (gr 70);
   KDataCreate true (gr 0) (gr 70) 8192 (gr 100) 1; KDataCreateUnknown (gr 0) (gr 70) 8192; KDataCreateUnknown (gr 0) (gr 70) 0; KDataCreateUnknown (gr 0) (gr 70) (2 ^ 21);
   KDataDestroy (gr 0) 8192; KRealmActivate (gr 0); KRealmDestroy (gr 0); KRecDestroy (gr 14); KRecDestroy (gr 16); KRecDestroy (gr 0);
   KRttCreate (gr 0) (gr 70) (2 ^ 21) 3; KRttCreate (gr 0) (gr 70) 0 3; KRttDestroy (gr 0) 0 3; KRttDestroy (gr 0) (2 ^ 21) 3;
   KRttMapUnprotected (gr 0) (2 ^ 32) 2 (2 ^ 30); KRttMapUnprotected (gr 0) (2 ^ 32 + 2 ^ 21) 2 1; KRttUnmapUnprotected (gr 0) (2 ^ 32 + 2 ^ 21) 2; KRecAuxCount (gr 0)]
  [[0]; [1]; [0]; [2]; [0]; [772]; [516]; [772]; [2]; [2]; [3]; [0]; [1]; [0]; [516]; [772]; [516]; [516]; [1]; [516]; [0; 16]].
Proof. tried. Qed.

Definition tables_theorems := (@C27_read, @C27_host_descriptor, @C28_top, @C33_new, @C34_monitor, @C34_translation, @C34_hardware, @C38_used, @C38_step, @C51_success).
Print Assumptions tables_theorems.
