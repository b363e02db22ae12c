(** C14: the realm initial measurement is the hash chain of the realm's construction. *)
From Coq Require Import NArith ZArith List Bool Lia.
From Verif Require Import Bits S2tte State Granule RecFields Measure RmiRtt RmiRealm Psci RmiRec Gic Esr Rsi RecRun Arch Mmu Machine
  Spec SpecStep SpecTables SpecRim Step Rim Demo Demo2.
Import ListNotations.
Local Open Scope N_scope.

(** Whatever else happened, the RIM of a realm is the chain of the steps that built it. *)
Theorem C14_rim : forall c h m a p l d, built c h m a p l -> realm m a d ->
  rd_algorithm d = p_algorithm p /\ rd_meas d 0 = rim_of (c_hash c (p_algorithm p)) p l.
Proof. exact built_rim. Qed.

(** Every realm of every reachable state was built so. *)
Theorem C14_built : forall c h m, reachable c h m -> forall a d, realm m a d -> exists p l, built c h m a p l.
Proof. exact has_history. Qed.

(** Realms with the same RIM, even on different machines, were built by the same steps
    from parameters that agree in what is measured. *)
Theorem C14_same_rim : forall c c' h h' m m' a a' d d' p p' l l', built c h m a p l -> built c' h' m' a' p' l' -> realm m a d -> realm m' a' d' ->
  c_hash c' = c_hash c -> rd_algorithm d = rd_algorithm d' -> collision_free (c_hash c (rd_algorithm d)) ->
  rd_meas d 0 = rd_meas d' 0 -> measured p = measured p' /\ l = l'.
Proof. exact same_rim. Qed.

(** ** Examples *)

Definition created (o : op) (rp : reply) (a : N) : option rparams :=
  match o, rp with
  | OCmd _ (KRealmCreate (Some p) rd _), Reply r => if (rd =? a) && (x0 r =? 0) then Some p else None
  | _, _ => None
  end.
Definition track1 (m : mstate) (o : op) (rp : reply) (m1 : mstate) (a : N) (cur : option (rparams * list bstep)) : option (rparams * list bstep) :=
  match created o rp a with
  | Some p => Some (p, [])
  | None => if is_rd_b m a && is_rd_b m1 a then match cur with Some (p, l) => Some (p, l ++ adds m o rp a) | None => None end else None
  end.
Fixpoint track (m : mstate) (l : list op) (a : N) (cur : option (rparams * list bstep)) : option (mstate * option (rparams * list bstep)) :=
  match l with
  | [] => Some (m, cur)
  | o :: l' => match step dcfg dhw m o with RDone m1 rp => track m1 l' a (track1 m o rp m1 a cur) | _ => None end
  end.
Definition cur_ok (m : mstate) (a : N) (cur : option (rparams * list bstep)) : Prop :=
  match cur with Some (p, l) => built dcfg dhw m a p l | None => True end.
Lemma is_rd_b_realm : forall m a, is_rd_b m a = true -> exists d, realm m a d.
Proof. intros m a E. unfold is_rd_b in E. destruct (g_state (m_gr m a)) eqn:S; try discriminate. destruct (g_mem (m_gr m a)) as [|d|] eqn:M; try discriminate. exists d. split; assumption. Qed.
Lemma track_ok : forall l m a cur m' cur', reachable dcfg dhw m -> Forall op_ok l -> cur_ok m a cur -> track m l a cur = Some (m', cur') -> cur_ok m' a cur'.
Proof.
  induction l as [|o l IH]; intros m a cur m' cur' R F B E; cbn [track] in E; [injection E as <- <-; exact B|].
  destruct (step dcfg dhw m o) as [m1 rp| | | |] eqn:S; try discriminate. inversion F as [|? ? F1 F2]; subst.
  assert (NX : next dcfg dhw m o m1 rp) by (split; [exact R|split; assumption]).
  refine (IH _ _ _ _ _ (next_reachable _ _ _ _ _ _ NX) F2 _ E). unfold track1.
  destruct (created o rp a) as [p|] eqn:C.
  - unfold created in C. destruct o as [p0 k| | | | | | | |]; try discriminate. destruct k; try discriminate. destruct params; try discriminate.
    destruct rp; try discriminate. destruct (N.eqb_spec rd a) as [->|]; [|discriminate]. destruct (N.eqb_spec (x0 r0) 0) as [X|]; [|discriminate].
    injection C as ->. cbn [cur_ok]. eapply built_first; [exact NX|]. exists p0. repeat split. exact X.
  - destruct (is_rd_b m a && is_rd_b m1 a) eqn:D; [|exact Logic.I]. destruct cur as [[p bs]|]; [|exact Logic.I].
    apply andb_prop in D. destruct D as [D1 D2]. apply is_rd_b_realm in D1, D2. destruct D1 as (d & D1), D2 as (d' & D2).
    cbn [cur_ok] in *. eapply built_next; eassumption.
Qed.
Lemma track_after : forall l m a cur m' cur', track m l a cur = Some (m', cur') -> exists k, exec dcfg dhw m l = Some (k, m').
Proof.
  induction l as [|o l IH]; intros m a cur m' cur' E; cbn [track exec] in *; [injection E as <- _; eauto|].
  destruct (step dcfg dhw m o) as [m1 rp| | | |]; try discriminate. destruct (IH _ _ _ _ _ E) as (k & ->). eauto.
Qed.

(** Realm 1 of the demonstration got four pages of RAM, one measured page and a REC; the
    second REC is not runnable and is not measured, and neither is the page added
    without contents. *)
Example C14_example : exists w,
  built dcfg dhw (after d_base) (gr 0) dpar1
    [BRipas 0 4096; BRipas 4096 8192; BRipas 8192 12288; BRipas 12288 16384; BData 0 (Some w); BRec 1 0 [0; 1; 2; 3; 4; 5; 6; 7]] /\
  firstn 3 w = [42; 43; gr 101 + 2] /\ realm (after d_base) (gr 0) (rd_of (after d_base) (gr 0)).
Proof.
  exists (42 :: 43 :: map (fun i => gr 101 + i) (skipn 2 idx512)).
  assert (T : exists m', track (init (fun a i => a + i)) d_base (gr 0) None = Some (m', Some (dpar1,
    [BRipas 0 4096; BRipas 4096 8192; BRipas 8192 12288; BRipas 12288 16384; BData 0 (Some (42 :: 43 :: map (fun i => gr 101 + i) (skipn 2 idx512)));
     BRec 1 0 [0; 1; 2; 3; 4; 5; 6; 7]]))).
  { assert (V : option_map snd (track (init (fun a i => a + i)) d_base (gr 0) None) = Some (Some (dpar1,
      [BRipas 0 4096; BRipas 4096 8192; BRipas 8192 12288; BRipas 12288 16384; BData 0 (Some (42 :: 43 :: map (fun i => gr 101 + i) (skipn 2 idx512)));
       BRec 1 0 [0; 1; 2; 3; 4; 5; 6; 7]]))) by (vm_compute; reflexivity).
    destruct (track (init (fun a i => a + i)) d_base (gr 0) None) as [[m' cur]|]; [|discriminate V].
    exists m'. cbn [option_map snd] in V. injection V as ->. reflexivity. }
  destruct T as (m' & T). destruct (track_after _ _ _ _ _ _ T) as (k & K).
  assert (A : after d_base = m') by (unfold after; rewrite K; reflexivity). rewrite A.
  assert (G : forallb op_okb d_base = true) by (vm_compute; reflexivity).
  assert (R0 : reachable dcfg dhw (init (fun a i => a + i))).
  { split; [exact dcfg_ok|]. exists (fun a i => a + i), []. split; constructor. }
  split; [exact (track_ok d_base (init (fun a i => a + i)) (gr 0) None m' _ R0 (op_ok_dec _ G) Logic.I T)|]. split; [vm_compute; reflexivity|].
  rewrite <- A. assert (B : is_rd_b (after d_base) (gr 0) = true) by (vm_compute; reflexivity).
  apply is_rd_b_realm in B. destruct B as (d & [B1 B2]). unfold rd_of. rewrite B2. split; assumption.
Qed.

(** There are collision free functions *)
Fixpoint godel (l : list N) : N := match l with [] => 0 | x :: l' => 2 ^ x * (2 * godel l' + 1) end.
Lemma pow2_odd : forall x y a b, 2 ^ x * (2 * a + 1) = 2 ^ y * (2 * b + 1) -> x = y /\ a = b.
Proof.
  assert (K : forall x y a b, x <= y -> 2 ^ x * (2 * a + 1) = 2 ^ y * (2 * b + 1) -> x = y /\ a = b).
  { intros x y a b L E. replace y with (x + (y - x)) in E by lia. rewrite N.pow_add_r, <- N.mul_assoc in E.
    apply N.mul_cancel_l in E; [|apply N.pow_nonzero; discriminate].
    destruct (N.eq_dec (y - x) 0) as [Z|Z]; [rewrite Z, N.pow_0_r, N.mul_1_l in E; lia|].
    replace (y - x) with (N.succ (y - x - 1)) in E by lia. rewrite N.pow_succ_r' in E.
    set (q := 2 ^ (y - x - 1)) in *. clearbody q. exfalso.
    assert (P : N.odd (2 * a + 1) = N.odd (2 * (q * (2 * b + 1)))) by (f_equal; rewrite E; rewrite N.mul_assoc; reflexivity).
    rewrite N.odd_add, !N.odd_mul in P. cbn in P. discriminate P. }
  intros x y a b E. destruct (N.le_ge_cases x y) as [L|L]; [apply K; assumption|].
  destruct (K y x b a L (eq_sym E)) as [-> ->]. auto.
Qed.
Example C14_collision_free : collision_free godel.
Proof.
  intros l. induction l as [|x l IH]; intros [|y l'] E; cbn [godel] in E.
  - reflexivity.
  - exfalso. symmetry in E. apply N.eq_mul_0 in E. pose proof (N.pow_nonzero 2 y). lia.
  - exfalso. apply N.eq_mul_0 in E. pose proof (N.pow_nonzero 2 x). lia.
  - apply pow2_odd in E. destruct E as [-> E]. apply IH in E. subst. reflexivity.
Qed.

Definition rim_theorems := (@C14_rim, @C14_built, @C14_same_rim).
Print Assumptions rim_theorems.
