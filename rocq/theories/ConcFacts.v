(** The invariant of several CPUs: every lock bit that is set belongs to one
    CPU, which follows the discipline of Disc.v. *)
From Coq Require Import NArith ZArith List Bool Lia Permutation Relations.
From Verif Require Import Bits S2tte State Granule RmiGranule RmiRtt RmiRealm RmiRec Machine Act Conc SpecConc Disc.
Import ListNotations.
Local Open Scope N_scope.

Definition cmd_mode (k : cmd) : mode :=
  match k with
  | KRecDestroy _ => Mp
  | KRecCreate _ _ _ _ => Mr
  | KUnknown | KVersion _ | KFeatures _ | KGranuleDelegate _ _ | KGranuleUndelegate _ _ | KRealmActivate _
  | KRealmCreate _ _ _ | KRecAuxCount _ | KPsciComplete _ _ _ => Mn
  | _ => Mt
  end.

Lemma cmd_disc : forall c G k, (forall a, c_gran c a = true -> a < 2 ^ 52) -> disc (cmd_mode k) [] (cmd_prog c G k) done_.
Proof.
  intros c G k C.
  assert (J : forall M p, disc M [] p done_ -> disc M [] (just p) done_).
  { intros M p D. unfold just. apply disc_bind. eapply disc_conseq; [exact D|]. intros a L E. apply disc_ret, E. }
  destruct k; cbn [cmd_mode cmd_prog]; try (apply disc_ret; reflexivity); try apply J.
  - apply c_delegate.
  - apply c_undelegate.
  - apply c_data_create.
  - apply d_data_create.
  - apply c_data_destroy.
  - apply c_activate.
  - apply c_realm_create, C.
  - apply c_realm_destroy.
  - apply c_rec_create.
  - apply c_rec_destroy.
  - apply c_rtt_create.
  - apply c_rtt_destroy.
  - apply c_map.
  - apply c_read_entry.
  - apply c_unmap.
  - apply c_psci.
  - apply c_fold.
  - apply c_aux_count.
  - apply c_init_ripas.
  - apply c_set_ripas.
Qed.

Lemma drop1_perm : forall g l, In g l -> Permutation l (g :: drop1 g l).
Proof.
  intros g l. induction l as [|h l IH]; intros I; [destruct I|]. cbn [drop1]. destruct (h =? g) eqn:E.
  - apply N.eqb_eq in E. subst. apply Permutation_refl.
  - apply N.eqb_neq in E. destruct I as [->|I]; [congruence|].
    eapply Permutation_trans; [apply perm_skip, IH, I|]. apply perm_swap.
Qed.
Lemma drop1_in : forall g l x, NoDup l -> (In x (drop1 g l) <-> In x l /\ x <> g).
Proof.
  intros g l x ND. destruct (in_dec N.eq_dec g l) as [I|NI].
  - pose proof (drop1_perm g l I) as P. pose proof (Permutation_NoDup P ND) as N2. inversion N2; subst. split.
    + intros J. split; [apply (Permutation_in _ (Permutation_sym P)); right; exact J|]. intros ->. contradiction.
    + intros [J NE]. apply (Permutation_in _ P) in J. destruct J as [E|J]; [congruence|exact J].
  - assert (drop1 g l = l).
    { clear - NI. induction l as [|h l IH]; [reflexivity|]. cbn [drop1]. destruct (h =? g) eqn:E.
      - apply N.eqb_eq in E. subst. destruct NI. left. reflexivity.
      - f_equal. apply IH. intros J. apply NI. right. exact J. }
    rewrite H. split; [intros J; split; [exact J|intros ->; contradiction]|intros [J _]; exact J].
Qed.
Lemma drop1_nodup : forall g l, NoDup l -> NoDup (drop1 g l).
Proof.
  intros g l. induction l as [|h l IH]; intros ND; [constructor|]. cbn [drop1]. inversion ND; subst.
  destruct (h =? g); [assumption|]. constructor; [|apply IH; assumption]. intros J. apply drop1_in in J; [|assumption]. tauto.
Qed.

Definition good_cpu (u : cpu) : Prop := disc (cmd_mode (u_cmd u)) (u_held u) (u_prog u) done_ /\ NoDup (u_held u).
Record cinv (m : conc) : Prop := {
  ci_cpu : forall p u, k_cpu m p = Some u -> good_cpu u;
  ci_lock : forall g, k_locks m g = true <-> exists p, holds m p g;
  ci_one : forall p q g, holds m p g -> holds m q g -> p = q
}.

Lemma holds_upd : forall L G V T f p o q g,
  holds (mkC L G V T (upd f p o)) q g <->
  (q = p /\ exists u, o = Some u /\ In g (u_held u)) \/ (q <> p /\ exists u, f q = Some u /\ In g (u_held u)).
Proof.
  intros. unfold holds. cbn [k_cpu]. unfold upd. destruct (q =? p) eqn:E.
  - apply N.eqb_eq in E. subst. split; [intros H; left; auto|]. intros [[_ H]|[NE _]]; [exact H|congruence].
  - apply N.eqb_neq in E. split; [intros H; right; auto|]. intros [[NE _]|[_ H]]; [congruence|exact H].
Qed.

(** A step of CPU [p] that leaves its locks alone *)
Lemma cinv_same : forall m p u u' G V T L, cinv m -> k_cpu m p = Some u -> L = k_locks m -> u_held u' = u_held u -> good_cpu u' ->
  cinv (mkC L G V T (upd (k_cpu m) p (Some u'))).
Proof.
  intros m p u u' G V T L I K -> E GU.
  assert (X : forall q g, holds (mkC (k_locks m) G V T (upd (k_cpu m) p (Some u'))) q g <-> holds m q g).
  { intros q g. rewrite holds_upd. split.
    - intros [[-> (u1 & E1 & I1)]|[NE H]]; [|exact H]. inversion E1; subst. exists u. split; [exact K|]. rewrite <- E. exact I1.
    - intros (u1 & K1 & I1). destruct (N.eq_dec q p) as [->|NE].
      + left. split; [reflexivity|]. exists u'. split; [reflexivity|]. rewrite E. congruence.
      + right. split; [exact NE|]. exists u1. auto. }
  constructor.
  - intros q u1. cbn [k_cpu]. unfold upd. destruct (q =? p); [intros E1; inversion E1; subst; exact GU|apply (ci_cpu _ I)].
  - intros g. cbn [k_locks]. rewrite (ci_lock _ I g). split; intros (q & H); exists q; apply X, H.
  - intros q r g H1 H2. apply X in H1, H2. apply (ci_one _ I _ _ _ H1 H2).
Qed.

Lemma cinv_step : forall c m e m', (forall a, c_gran c a = true -> a < 2 ^ 52) -> tidy m e -> cstep c m e m' -> cinv m -> cinv m'.
Proof.
  intros c m e m' C TD ST I. destruct ST.
  - assert (X : forall q g, holds (mkC (k_locks m) (k_gr m) (k_vmids m) (k_tlb m) (upd (k_cpu m) p (Some (mkCpu k (cmd_prog c G k) (fun _ => false) [])))) q g <-> holds m q g).
    { intros q g. rewrite holds_upd. split.
      - intros [[-> (u1 & E1 & I1)]|[NE H1]]; [|exact H1]. inversion E1; subst. destruct I1.
      - intros (u1 & K1 & I1). right. split; [intros ->; congruence|]. exists u1. auto. }
    constructor.
    + intros q u1. cbn [k_cpu]. unfold upd. destruct (q =? p); [|apply (ci_cpu _ I)]. intros E1. inversion E1; subst.
      split; [apply cmd_disc, C|constructor].
    + intros g. cbn [k_locks]. rewrite (ci_lock _ I g). split; intros (q & H1); exists q; apply X, H1.
    + intros q r g H1 H2. apply X in H1, H2. apply (ci_one _ I _ _ _ H1 H2).
  - rename H into K. rename H0 into A. destruct (ci_cpu _ I _ _ K) as (D & ND).
    assert (SAME : forall L G V T u', L = k_locks m -> u_held u' = u_held u -> u_cmd u' = u_cmd u ->
              disc (cmd_mode (u_cmd u)) (u_held u) (u_prog u') done_ -> cinv (mkC L G V T (upd (k_cpu m) p (Some u')))).
    { intros L G V T u' EL E EC D'. apply cinv_same with u; try assumption. split; rewrite ?EC, E; [exact D'|exact ND]. }
    destruct (u_prog u) eqn:EP; cbn [act] in A; cbn [disc] in D; cbn [held_after];
      try discriminate A;
      try (match type of A with context [if ?b then _ else _] => destruct b eqn:LK end; try discriminate A);
      try (match type of A with context [match g_mem ?x with _ => _ end] => destruct (g_mem x) eqn:GM end; try discriminate A);
      injection A as <- <-; unfold shared, local, set_gr, set_slot, set_vmid, set_tlb, set_lock in *; cbn [s_locks s_gr s_vmids s_tlb s_slots] in *;
      try (apply SAME; cbn [u_held u_prog u_cmd]; [reflexivity|reflexivity|reflexivity|]; first [exact D | apply D | exact (proj2 D) | exact (proj2 D _)]).
    + destruct D as (O & D).
      assert (NI : ~ In g (u_held u)).
      { intros J. assert (k_locks m g = true) by (apply (ci_lock _ I); exists p, u; auto). congruence. }
      assert (NH : forall q, ~ holds m q g) by (intros q H; assert (k_locks m g = true) by (apply (ci_lock _ I); exists q; exact H); congruence).
      constructor.
      * intros q u1. cbn [k_cpu]. unfold upd. destruct (q =? p); [|apply (ci_cpu _ I)]. intros E1. inversion E1; subst.
        split; cbn [u_held u_prog u_cmd]; [apply D, NI|constructor; assumption].
      * intros g1. cbn [k_locks]. unfold upd at 1. destruct (g1 =? g) eqn:E.
        -- apply N.eqb_eq in E. subst. split; [|reflexivity]. intros _. exists p. apply holds_upd. left. split; [reflexivity|].
           eexists. split; [reflexivity|]. left. reflexivity.
        -- apply N.eqb_neq in E. rewrite (ci_lock _ I). split; intros (q & H); exists q.
           ++ apply holds_upd. destruct H as (u1 & K1 & I1). destruct (N.eq_dec q p) as [->|NE].
              ** left. split; [reflexivity|]. eexists. split; [reflexivity|]. right. congruence.
              ** right. split; [exact NE|]. exists u1. auto.
           ++ apply holds_upd in H. destruct H as [[-> (u1 & E1 & I1)]|[NE H]]; [|exact H]. inversion E1; subst.
              destruct I1 as [E2|I1]; [congruence|]. exists u. auto.
      * intros q r g1 H1 H2. apply holds_upd in H1, H2.
        destruct H1 as [[-> (u1 & E1 & I1)]|[NE1 H1]], H2 as [[-> (u2 & E2 & I2)]|[NE2 H2]]; try reflexivity.
        -- inversion E1; subst. destruct I1 as [E3|I1].
           ++ cbn in E3. subst. exfalso. apply (NH r). exact H2.
           ++ symmetry. apply (ci_one _ I r p g1); [exact H2|]. exists u. auto.
        -- inversion E2; subst. destruct I2 as [E3|I2].
           ++ cbn in E3. subst. exfalso. apply (NH q). exact H1.
           ++ apply (ci_one _ I q p g1); [exact H1|]. exists u. auto.
        -- apply (ci_one _ I q r g1); assumption.
    + destruct D as (O & D).
      assert (J : In g (u_held u)).
      { destruct O as [O|O]; [|exact O]. cbn [tidy] in TD.
        destruct (TD (u_cmd u) g) as (u1 & K1 & I1).
        - exists u. auto.
        - destruct (u_cmd u); exact O || exact Logic.I.
        - exists u, p0. auto.
        - congruence. }
      pose proof (drop1_perm _ _ J) as P. specialize (D _ P).
      assert (IN : forall x, In x (drop1 g (u_held u)) <-> In x (u_held u) /\ x <> g) by (intros x; apply drop1_in, ND).
      constructor.
      * intros q u1. cbn [k_cpu]. unfold upd. destruct (q =? p); [|apply (ci_cpu _ I)]. intros E1. inversion E1; subst.
        split; cbn [u_held u_prog u_cmd]; [apply D|apply drop1_nodup, ND].
      * intros g1. cbn [k_locks]. unfold upd at 1. destruct (g1 =? g) eqn:E.
        -- apply N.eqb_eq in E. subst. split; [discriminate|]. intros (q & H). apply holds_upd in H.
           destruct H as [[-> (u1 & E1 & I1)]|[NE H]].
           ++ inversion E1; subst. apply IN in I1. destruct I1; congruence.
           ++ exfalso. apply NE. apply (ci_one _ I q p g); [exact H|]. exists u. auto.
        -- apply N.eqb_neq in E. rewrite (ci_lock _ I). split; intros (q & H); exists q.
           ++ apply holds_upd. destruct H as (u1 & K1 & I1). destruct (N.eq_dec q p) as [->|NE].
              ** left. split; [reflexivity|]. eexists. split; [reflexivity|]. apply IN. split; [congruence|exact E].
              ** right. split; [exact NE|]. exists u1. auto.
           ++ apply holds_upd in H. destruct H as [[-> (u1 & E1 & I1)]|[NE H]]; [|exact H]. inversion E1; subst.
              apply IN in I1. exists u. split; [exact K|apply I1].
      * intros q r g1 H1 H2. apply holds_upd in H1, H2.
        destruct H1 as [[-> (u1 & E1 & I1)]|[NE1 H1]], H2 as [[-> (u2 & E2 & I2)]|[NE2 H2]]; try reflexivity.
        -- inversion E1; subst. apply IN in I1. symmetry. apply (ci_one _ I r p g1); [exact H2|]. exists u. split; [exact K|apply I1].
        -- inversion E2; subst. apply IN in I2. apply (ci_one _ I q p g1); [exact H1|]. exists u. split; [exact K|apply I2].
        -- apply (ci_one _ I q r g1); assumption.
  - destruct (ci_cpu _ I _ _ H) as (D & ND). rewrite H0 in D. cbn [disc] in D. destruct D as (L & P & E). unfold done_ in E. subst L.
    apply Permutation_sym, Permutation_nil in P.
    assert (X : forall q g, holds (mkC (k_locks m) (k_gr m) (k_vmids m) (k_tlb m) (upd (k_cpu m) p None)) q g <-> holds m q g).
    { intros q g. rewrite holds_upd. split.
      - intros [[-> (u1 & E1 & I1)]|[NE H1]]; [discriminate E1|exact H1].
      - intros (u1 & K1 & I1). right. split; [|exists u1; auto]. intros ->. assert (u1 = u) by congruence. subst. rewrite P in I1. destruct I1. }
    constructor.
    + intros q u1. cbn [k_cpu]. unfold upd. destruct (q =? p); [discriminate|apply (ci_cpu _ I)].
    + intros g. cbn [k_locks]. rewrite (ci_lock _ I g). split; intros (q & H1); exists q; apply X, H1.
    + intros q r0 g H1 H2. apply X in H1, H2. apply (ci_one _ I _ _ _ H1 H2).
  - constructor.
    + intros q u1 K. apply (ci_cpu _ I q u1 K).
    + intros g. apply (ci_lock _ I g).
    + intros q r g H1 H2. apply (ci_one _ I q r g H1 H2).
Qed.

Lemma runs_inv : forall c m, (forall a, c_gran c a = true -> a < 2 ^ 52) -> runs c tidy m -> cinv m.
Proof.
  intros c m C R. induction R as [m (L & K)|m e m' R IH T ST].
  - constructor.
    + intros p u E. rewrite K in E. discriminate E.
    + intros g. rewrite L. split; [discriminate|]. intros (p & u & E & _). rewrite K in E. discriminate E.
    + intros p q g (u & E & _). rewrite K in E. discriminate E.
  - apply (cinv_step c m e m' C T ST IH).
Qed.

(** ** The theorems *)

Lemma exclusion : forall c m p q g, (forall a, c_gran c a = true -> a < 2 ^ 52) -> runs c tidy m ->
  holds m p g -> holds m q g -> p = q.
Proof. intros c m p q g C R. apply (ci_one _ (runs_inv c m C R)). Qed.

Lemma lock_owned : forall c m g, (forall a, c_gran c a = true -> a < 2 ^ 52) -> runs c tidy m ->
  (k_locks m g = true <-> exists p, holds m p g).
Proof. intros c m g C R. apply (ci_lock _ (runs_inv c m C R)). Qed.

Lemma upd_other : forall A (f : N -> A) a v b, b <> a -> upd f a v b = f b.
Proof. intros. unfold upd. destruct (b =? a) eqn:E; [apply N.eqb_eq in E; congruence|reflexivity]. Qed.

Lemma writes_locked : forall c m p m' g, (forall a, c_gran c a = true -> a < 2 ^ 52) -> runs c tidy m ->
  cstep c m (Go p) m' -> k_gr m' g <> k_gr m g ->
  holds m p g \/
  (exists k, handles m p k /\ is_rec_destroy k) /\
  k_gr m' g = mkG (g_state (k_gr m g)) (g_ref (k_gr m g) - 1) (g_mem (k_gr m g)).
Proof.
  intros c m p m' g C R ST NE. pose proof (runs_inv c m C R) as I. inversion ST; subst; [|contradiction NE; reflexivity].
  match goal with K0 : k_cpu m p = Some u, A0 : act _ _ = _ |- _ => rename K0 into K; rename A0 into A end.
  destruct (ci_cpu _ I _ _ K) as (D & ND).
  assert (H1 : forall x, In x (u_held u) -> holds m p x) by (intros x J; exists u; auto).
  assert (W : forall x y L V T k, In x (u_held u) -> k_gr (shared (mkS L V (upd (k_gr m) x y) T []) k) g <> k_gr m g -> holds m p g).
  { intros x y L V T k J E. cbn in E. unfold upd in E. destruct (g =? x) eqn:EQ; [apply N.eqb_eq in EQ; subst; apply H1, J|congruence]. }
  destruct (u_prog u) eqn:EP; cbn [act] in A; cbn [disc] in D; try discriminate A;
      try (match type of A with context [if ?b then _ else _] => destruct b eqn:LK end; try discriminate A);
      try (match type of A with context [match g_mem ?x with _ => _ end] => destruct (g_mem x) eqn:GM end; try discriminate A);
      injection A as <- <-; unfold shared, local, set_gr, set_slot, set_vmid, set_tlb, set_lock in *; cbn [s_locks s_gr s_vmids s_tlb s_slots k_gr] in *;
      try (contradiction NE; reflexivity).
  - left. apply (W g0 _ (k_locks m) (u_slots u) (k_vmids m) (k_cpu m) (proj1 D) NE).
  - destruct D as ([J|(X & ->)] & _).
    + left. apply (W g0 _ (k_locks m) (u_slots u) (k_vmids m) (k_cpu m) J NE).
    + destruct (N.eq_dec g g0) as [->|NE2]; [|rewrite upd_other in NE by exact NE2; contradiction NE; reflexivity].
      right. split.
      * exists (u_cmd u). split; [exists u; auto|]. destruct (u_cmd u); try destruct X; exact Logic.I.
      * unfold upd. rewrite N.eqb_refl. f_equal. lia.
  - left. apply (W g0 _ (k_locks m) (u_slots u) (k_vmids m) (k_cpu m) (proj1 D) NE).
  - left. apply (W g0 _ (k_locks m) (u_slots u) (k_vmids m) (k_cpu m) (proj1 D) NE).
Qed.

Lemma released : forall c m p m', (forall a, c_gran c a = true -> a < 2 ^ 52) -> runs c tidy m ->
  cstep c m (Go p) m' -> k_cpu m' p = None -> forall g, ~ holds m p g.
Proof.
  intros c m p m' C R ST E g (u1 & K1 & J). pose proof (runs_inv c m C R) as I. inversion ST; subst.
  - unfold shared in E. cbn [k_cpu] in E. unfold upd in E. rewrite N.eqb_refl in E. discriminate E.
  - assert (u1 = u) by congruence. subst u1. destruct (ci_cpu _ I _ _ K1) as (D & ND).
    match goal with E0 : u_prog u = Ret _ |- _ => rewrite E0 in D end.
    destruct D as (L & P & EL). unfold done_ in EL. subst L. apply Permutation_sym, Permutation_nil in P. rewrite P in J. destruct J.
Qed.

(** A CPU handling a command of the list waits for a lock above those it holds *)
Lemma waits_above : forall c m p k g h, (forall a, c_gran c a = true -> a < 2 ^ 52) -> runs c tidy m ->
  handles m p k -> named_only k -> waits m p g -> holds m p h -> h < g.
Proof.
  intros c m p k g h C R (u & K & E) NM (u1 & k1 & K1 & E1 & L) (u2 & K2 & J).
  assert (u1 = u) by congruence. assert (u2 = u) by congruence. subst u1 u2.
  destruct (ci_cpu _ (runs_inv c m C R) _ _ K) as (D & _). rewrite E1 in D. cbn [disc] in D. destruct D as ([O|O] & _).
  - rewrite E in O. destruct k; cbn in NM, O; contradiction.
  - apply O, J.
Qed.

Lemma no_cycle : forall c m p, (forall a, c_gran c a = true -> a < 2 ^ 52) -> runs c tidy m ->
  ~ clos_trans N (named_waits m) p p.
Proof.
  intros c m p C R T.
  assert (X : forall p q, clos_trans N (named_waits m) p q -> forall g g', waits m p g -> waits m q g' -> g < g').
  { intros a b CT. apply clos_trans_t1n in CT. induction CT as [a b (PA & PB & (x & WA & HB))|a b d (PA & PB & (x & WA & HB)) CT IH]; intros g g' W W'.
    - assert (g = x). { destruct W as (u & k & K & E & _), WA as (u' & k' & K' & E' & _). assert (u = u') by congruence. subst. congruence. } subst x.
      destruct PB as (k & HK & NM). apply (waits_above c m b k g' g C R HK NM W' HB).
    - assert (g = x). { destruct W as (u & k & K & E & _), WA as (u' & k' & K' & E' & _). assert (u = u') by congruence. subst. congruence. } subst x.
      assert (WB : exists y, waits m b y).
      { destruct CT as [z (_ & _ & (y & W1 & _))|z w (_ & _ & (y & W1 & _)) _]; exists y; exact W1. }
      destruct WB as (y & WB). destruct PB as (k & HK & NM). pose proof (waits_above c m b k y g C R HK NM WB HB) as L1.
      specialize (IH y g' WB W'). lia. }
  assert (W0 : forall a b, clos_trans N (named_waits m) a b -> exists g, waits m a g).
  { intros a b CT. apply clos_trans_t1n in CT. destruct CT as [y (_ & _ & (g & W1 & _))|y z (_ & _ & (g & W1 & _)) _]; exists g; exact W1. }
  destruct (W0 p p T) as (g & W). specialize (X p p T g g W W). lia.
Qed.
