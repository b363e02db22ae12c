(** C30: cached translations *)
From Coq Require Import NArith ZArith List Bool Lia.
From Verif Require Import Bits S2tte State Granule RecFields Measure RmiGranule RmiRtt RmiRealm Psci RmiRec Gic Esr Rsi RecRun Arch Mmu Machine Spec SpecStep SpecTlb Demo Demo2 Demo3 Tlb.
Import ListNotations.
Local Open Scope N_scope.

(** The full claim is that in every reachable state, whatever CPUs have put into their TLBs, every entry
    that can be used for a realm that lives says what the tables of the realm say:

      forall c h m a d ipa pg, reachable c h m -> realm m a d -> cached m d ipa pg -> page_at (m_gr m) (rd_ctx d) ipa = pg.

    It is false of the code, in two ways (findings F8 and F3), shown below.  What holds
    are the following two parts. *)

(** When no table of large mappings is folded or destroyed and no realm with
    mappings, entries of the TLB never disagree with the tables. *)
Theorem C30_partial : forall c h m a d ipa pg, guided gentle c h m -> realm m a d -> cached m d ipa pg ->
  page_at (m_gr m) (rd_ctx d) ipa = pg /\ translate (m_gr m) (rd_ctx d) ipa <> XFault.
Proof. exact cached_all. Qed.

(** When only no table with large mappings of memory of realms is folded (so that the
    host can destroy tables and realms at any time), entries that lead to memory of
    realms never disagree with the tables, and that memory still belongs to the realm. *)
Theorem C30_realm_partial : forall c h m a d ipa q pa, guided no_large_fold c h m -> realm m a d -> cached m d ipa (PAssigned q pa) ->
  page_at (m_gr m) (rd_ctx d) ipa = PAssigned q pa /\ q = RAM /\ g_state (m_gr m pa) = DATA.
Proof. exact cached_realm. Qed.

(** Histories of the demonstration *)
Definition calm (o : op) : bool :=
  match o with OCmd _ (KRttFold _ _ _) | OCmd _ (KRttDestroy _ _ _) | OCmd _ (KRealmDestroy _) => false | _ => true end.
Lemma calm_gentle : forall m o, calm o = true -> gentle m o /\ no_large_fold m o.
Proof. intros m o E. destruct o as [p k| | | | | | | |]; try (split; exact Logic.I). destruct k; try discriminate E; split; exact Logic.I. Qed.
Lemma calm_guided : forall l (ok : mstate -> op -> Prop), forallb op_okb l = true -> forallb calm l = true -> fine l = true -> (forall m o, calm o = true -> ok m o) -> guided ok dcfg dhw (after l).
Proof.
  intros l ok E1 E2 E3 K. unfold after, fine in *. destruct (exec dcfg dhw (init (fun a i => a + i)) l) as [[k m]|] eqn:X; [|discriminate E3]. clear E3.
  assert (GEN : forall l m0 k m, guided ok dcfg dhw m0 -> reachable dcfg dhw m0 -> forallb op_okb l = true -> forallb calm l = true -> exec dcfg dhw m0 l = Some (k, m) -> guided ok dcfg dhw m).
  { clear - K. induction l as [|o l IH]; intros m0 k m GD RC E1 E2 X; cbn [exec] in X.
    - injection X as _ <-. exact GD.
    - cbn [forallb] in E1, E2. apply andb_prop in E1. destruct E1 as [E1 E1']. apply andb_prop in E2. destruct E2 as [E2 E2'].
      destruct (step dcfg dhw m0 o) as [m1 r| | | |] eqn:S; try discriminate X. destruct (exec dcfg dhw m1 l) as [[k1 m2]|] eqn:X1; try discriminate X. injection X as _ <-.
      assert (NX : next dcfg dhw m0 o m1 r).
      { split; [exact RC|]. split; [|exact S]. assert (Q : forallb op_okb [o] = true) by (cbn [forallb]; rewrite E1; reflexivity). pose proof (op_ok_dec [o] Q) as F. inversion F. assumption. }
      eapply (IH m1 k1); try eassumption.
      + eapply gd_next; [exact GD|apply K, E2|exact NX].
      + eapply guided_good. eapply (gd_next ok); [exact GD|apply K, E2|exact NX]. }
  eapply GEN; try eassumption.
  - apply gd_init, dcfg_ok.
  - split; [exact dcfg_ok|]. exists (fun a i => a + i), []. split; constructor.
Qed.

Definition shows (m : mstate) (d : rdesc) (ipa : N) (t : tlbe) : page := page_desc (enable_lpa2 (rd_ctx d)) (t_level t) (t_word t) ipa.
Definition head_entry (m : mstate) : tlbe := hd (mkTlbe 0 0 0 0) (m_tlb m).
Definition usable (m : mstate) (a ipa : N) : bool :=
  let t := head_entry m in
  match m_tlb m with [] => false | _ => true end && is_rd_b m a && (t_vmid t =? vmid (rd_ctx (rd_of m a))) && block (t_ipa t) (t_level t) ipa.
Lemma usable_cached : forall m a ipa, usable m a ipa = true -> realm m a (rd_of m a) /\ cached m (rd_of m a) ipa (shows m (rd_of m a) ipa (head_entry m)).
Proof.
  intros m a ipa E. unfold usable in E. cbv zeta in E. facts E. split; [apply realm_b; assumption|]. exists (head_entry m). unfold head_entry in *. destruct (m_tlb m); [discriminate|].
  cbn [hd] in *. repeat split; try assumption; try (left; reflexivity).
Qed.

(** A realm accesses its first page while the host works on others: the translation stays in the TLB *)
Definition d_cached : list op :=
  d_build ++ d_run ++ [OFill 0 4; OCmd 1 (KDataDestroy (gr 0) 4096); OCmd 1 (KRttUnmapUnprotected (gr 0) (2 ^ 32) 2)].
Definition fine_m (l : list op) (f : mstate -> bool) : bool := match exec dcfg dhw (init (fun a i => a + i)) l with Some (_, m) => f m | None => false end.
Lemma fine_after : forall l f, fine_m l f = true -> fine l = true /\ f (after l) = true.
Proof. intros l f E. unfold fine_m, fine, after in *. destruct (exec _ _ _ l) as [[k m]|]; [auto|discriminate E]. Qed.
Example C30_example : guided gentle dcfg dhw (after d_cached) /\ guided no_large_fold dcfg dhw (after d_cached) /\
  realm (after d_cached) (gr 0) (rd_of (after d_cached) (gr 0)) /\ cached (after d_cached) (rd_of (after d_cached) (gr 0)) 8 (PAssigned RAM (gr 9)).
Proof.
  assert (E : forallb op_okb d_cached && forallb calm d_cached && fine_m d_cached (fun m => usable m (gr 0) 8 &&
    page_eqb (shows m (rd_of m (gr 0)) 8 (head_entry m)) (PAssigned RAM (gr 9))) = true) by (vm_compute; reflexivity).
  apply andb_prop in E. destruct E as [E F]. destruct (fine_after _ _ F) as [F1 F2]. clear F. cbv beta in F2.
  facts E. facts F2. split; [apply calm_guided; try assumption; intros; apply calm_gentle; assumption|]. split; [apply calm_guided; try assumption; intros; apply calm_gentle; assumption|].
  match goal with Q : usable _ _ _ = true |- _ => destruct (usable_cached _ _ _ Q) as [R C] end.
  split; [exact R|]. match goal with Q : page_eqb _ _ = true |- _ => apply page_eq in Q; rewrite Q in C end. exact C.
Qed.

(** ** The full claim is false *)

Definition staleb (n : N) (p q : page) : bool := match p, q with PNsUnassigned, PNsAssigned pa _ _ => pa =? n | _, _ => false end.
Lemma stale : forall n p q, staleb n p q = true -> p <> q.
Proof. intros n p q E F. subst q. destruct p; discriminate E. Qed.
Definition faultb (x : xlat) : bool := match x with XFault => true | _ => false end.
Lemma fault : forall x, faultb x = true -> x = XFault.
Proof. intros x E. destruct x; [reflexivity|discriminate E]. Qed.

(** F8: a realm is destroyed while its root table maps memory of the host, and another is created with
    the same VMID: it finds the translation of the first in the TLB, where its own tables have nothing. *)
Definition dpar3 : rparams := mkRparams 0 33 0 1 1 0 0 79 3 (gr 72) 1 1.
Definition d_reuse : list op :=
  d_build ++ on_cpu0 (delegates 80 16 ++
    [KRealmCreate (Some dpar3) (gr 70) (gr 100); KRttMapUnprotected (gr 70) (2 ^ 32) 1 (2 ^ 30 + 4 + 192);
     KRecCreate (Some (drec 0 80 1 0)) (gr 70) (gr 71) (gr 100); KRealmActivate (gr 70)]) ++
  [OEnter 0 (gr 71) (gr 102) (Some denter) dfin no_tm; OFill 0 (2 ^ 32 + 8)] ++ d_exit ++
  on_cpu0 [KRecDestroy (gr 71); KRealmDestroy (gr 70); KRealmCreate (Some dpar3) (gr 70) (gr 100)].

Theorem C30_refuted : exists c h m a d ipa pg, reachable c h m /\ realm m a d /\ cached m d ipa pg /\
  page_at (m_gr m) (rd_ctx d) ipa <> pg /\ translate (m_gr m) (rd_ctx d) ipa = XFault.
Proof.
  assert (E : forallb op_okb d_reuse && fine_m d_reuse (fun m => usable m (gr 70) (2 ^ 32) &&
    staleb (2 ^ 30) (page_at (m_gr m) (rd_ctx (rd_of m (gr 70))) (2 ^ 32)) (shows m (rd_of m (gr 70)) (2 ^ 32) (head_entry m)) &&
    faultb (translate (m_gr m) (rd_ctx (rd_of m (gr 70))) (2 ^ 32))) = true) by (vm_compute; reflexivity).
  apply andb_prop in E. destruct E as [E1 E]. destruct (fine_after _ _ E) as [_ E0]. clear E. cbv beta in E0.
  apply andb_prop in E0. destruct E0 as [E0 E4]. apply andb_prop in E0. destruct E0 as [E2 E3].
  exists dcfg, dhw, (after d_reuse), (gr 70). destruct (usable_cached _ _ _ E2) as [R C]. eexists. eexists. eexists.
  split; [apply after_reachable; exact E1|]. split; [exact R|]. split; [exact C|]. split.
  - exact (stale _ _ _ E3).
  - exact (fault _ E4).
Qed.

(** F3: the host maps 1GB of its memory in blocks of 2MB, the realm accesses the last, the host folds the
    table into one block of 1GB and unmaps it.  The realm still reaches the memory. *)
Definition d_large : list op :=
  d_build ++ on_cpu0 ([KRttUnmapUnprotected (gr 0) (2 ^ 32) 2] ++
    map (fun i => KRttMapUnprotected (gr 0) (2 ^ 32 + N.of_nat i * 2 ^ 21) 2 (2 ^ 30 + N.of_nat i * 2 ^ 21 + 4 + 192)) (seq 0 512)) ++
  [OEnter 0 (gr 14) (gr 102) (Some denter) dfin no_tm; OFill 0 (2 ^ 32 + 2 ^ 30 - 8)] ++
  [OCmd 1 (KRttFold (gr 0) (2 ^ 32) 2); OCmd 1 (KRttUnmapUnprotected (gr 0) (2 ^ 32) 1)].

Theorem C30_fold_refuted : exists c h m a d ipa pg, reachable c h m /\ realm m a d /\ cached m d ipa pg /\
  (exists p rec r, executes m p rec /\ rec_is m rec r /\ r_g_rd r = a) /\
  page_at (m_gr m) (rd_ctx d) ipa <> pg /\ translate (m_gr m) (rd_ctx d) ipa = XFault.
Proof.
  assert (E : forallb op_okb d_large && fine_m d_large (fun m => usable m (gr 0) (2 ^ 32 + 2 ^ 30 - 8) &&
    staleb (2 ^ 31 - 4096) (page_at (m_gr m) (rd_ctx (rd_of m (gr 0))) (2 ^ 32 + 2 ^ 30 - 8)) (shows m (rd_of m (gr 0)) (2 ^ 32 + 2 ^ 30 - 8) (head_entry m)) &&
    faultb (translate (m_gr m) (rd_ctx (rd_of m (gr 0))) (2 ^ 32 + 2 ^ 30 - 8)) &&
    (is_rec_b m (gr 14) && (r_g_rd (rec_of m (gr 14)) =? gr 0) && match m_cpu m 0 with Some ru => ru_rec ru =? gr 14 | None => false end)) = true) by (vm_compute; reflexivity).
  apply andb_prop in E. destruct E as [E1 E]. destruct (fine_after _ _ E) as [_ E0]. clear E. cbv beta in E0.
  apply andb_prop in E0. destruct E0 as [E0 E5]. apply andb_prop in E0. destruct E0 as [E0 E4]. apply andb_prop in E0. destruct E0 as [E2 E3].
  exists dcfg, dhw, (after d_large), (gr 0). destruct (usable_cached _ _ _ E2) as [R C]. eexists. eexists. eexists.
  split; [apply after_reachable; exact E1|]. split; [exact R|]. split; [exact C|]. split; [|split].
  - revert E5. generalize (after d_large) as m. intros m E5. facts E5. exists 0, (gr 14), (rec_of m (gr 14)). split; [|split; [apply rec_b; assumption|assumption]].
    unfold executes. destruct (m_cpu m 0) as [ru|]; [|discriminate]. exists ru. split; [reflexivity|]. apply N.eqb_eq. assumption.
  - exact (stale _ _ _ E3).
  - exact (fault _ E4).
Qed.

Definition tlb_theorems := (@C30_partial, @C30_realm_partial, @C30_refuted, @C30_fold_refuted).
Print Assumptions tlb_theorems.
