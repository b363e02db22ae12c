(** Two runs of a program on states that agree in what is public: the reads of
    secret memory do not influence the steps. *)
From Coq Require Import NArith ZArith List Bool Lia.
From Verif Require Import Bits S2tte State Granule RecFields Measure RmiGranule RmiRtt RmiRealm Psci RmiRec Machine SpecAgree.
Import ListNotations.
Local Open Scope N_scope.

Definition secret (v : gstate) : bool := match v with DATA | REC_AUX => true | _ => false end.

Section Ni.
(** A property of the RECs of both states *)
Variable J : recd -> Prop.

Definition crel (x x' : content) : Prop :=
  content_agree x x' /\ match x with CRec r => J r | _ => True end.

(** [P]: granules whose contents are known to agree *)
Fixpoint ni {A B} (P : list N) (p : prog A) (p' : prog B) (Q : list N -> A -> B -> Prop) {struct p} : Prop :=
  match p, p' with
  | Ret a, Ret a' => exists L, incl L P /\ Q L a a'
  | Panic, Panic => True
  | Lock g k, Lock g' k' | Unlock g k, Unlock g' k' | AssertLocked g k, AssertLocked g' k'
  | MapSlot g k, MapSlot g' k' | UnmapSlot g k, UnmapSlot g' k' | VmidClear g k, VmidClear g' k' => g = g' /\ ni P k k' Q
  | RdState g k, RdState g' k' => g = g' /\ forall v, ni (if secret v then P else g :: P) (k v) (k' v) Q
  | WrState g v k, WrState g' v' k' => g = g' /\ v = v' /\ (secret v = true \/ In g P) /\ ni P k k' Q
  | RdRef g k, RdRef g' k' => g = g' /\ forall v, ni P (k v) (k' v) Q
  | AddRef g d k, AddRef g' d' k' => g = g' /\ d = d' /\ forall v, ni P (k v) (k' v) Q
  | RdMem g k, RdMem g' k' => g = g' /\ In g P /\ forall x x', crel x x' -> ni P (k x) (k' x') Q
  | WrMem g x k, WrMem g' x' k' => g = g' /\ crel x x' /\ ni (g :: P) k k' Q
  | RdWord g i k, RdWord g' i' k' => g = g' /\ i = i' /\ In g P /\ forall v, ni P (k v) (k' v) Q
  | WrWord g i w k, WrWord g' i' w' k' => g = g' /\ i = i' /\ w = w' /\ In g P /\ ni P k k' Q
  | VmidSet v k, VmidSet v' k' => v = v' /\ forall b, ni P (k b) (k' b) Q
  | Tlbi v i s k, Tlbi v' i' s' k' => v = v' /\ i = i' /\ s = s' /\ ni P k k' Q
  | _, _ => False
  end.

Ltac parts := repeat match goal with |- _ /\ _ => split end.
Ltac clash p' := destruct p'; cbn [ni] in *; try contradiction.

Lemma ni_mono : forall A B (p : prog A) (p' : prog B) P P' Q, incl P P' -> ni P p p' Q -> ni P' p p' Q.
Proof.
  intros A B p. induction p; intros p' P P' Q S D; clash p';
    repeat match goal with D : _ /\ _ |- _ => destruct D end; subst;
    parts; auto; try (eapply IHp; eauto; fail); try (intros; eapply H; eauto; fail).
  - destruct D as (L & D & E). exists L. split; [|exact E]. intros y Y. apply S, D, Y.
  - intros v0. eapply H; [|eauto]. destruct (secret v0); [exact S|]. intros y [<-|Y]; [left; reflexivity|right; apply S, Y].
  - match goal with D : _ \/ _ |- _ => destruct D; auto end.
  - eapply IHp; [|eauto]. intros y [<-|Y]; [left; reflexivity|right; apply S, Y].
Qed.

Lemma ni_conseq : forall A B (p : prog A) (p' : prog B) P (Q Q' : list N -> A -> B -> Prop), ni P p p' Q ->
  (forall L a a', Q L a a' -> Q' L a a') -> ni P p p' Q'.
Proof.
  intros A B p. induction p; intros p' P Q Q' D C; clash p';
    repeat match goal with D : _ /\ _ |- _ => destruct D end; subst;
    parts; auto; try (eapply IHp; eauto; fail); try (intros; eapply H; eauto; fail).
  destruct D as (L & D & E). exists L. auto.
Qed.

Lemma ni_bind : forall A B A' B' (p : prog A) (p' : prog A') (f : A -> prog B) (f' : A' -> prog B') P Q,
  ni P p p' (fun L a a' => ni L (f a) (f' a') Q) -> ni P (bind p f) (bind p' f') Q.
Proof.
  intros A B A' B' p. induction p; intros p' f f' P Q D; clash p'; cbn [bind ni];
    repeat match goal with D : _ /\ _ |- _ => destruct D end; subst;
    parts; auto; try (eapply IHp; eauto; fail); try (intros; eapply H; eauto; fail).
  destruct D as (L & D & E). apply (ni_mono _ _ _ _ _ _ _ D E).
Qed.

Lemma ni_ret : forall A B (a : A) (b : B) P (Q : list N -> A -> B -> Prop), Q P a b -> ni P (Ret a) (Ret b) Q.
Proof. intros. exists P. split; [apply incl_refl|assumption]. Qed.

(** ** Meaning *)

Definition glow (g g' : granule) : Prop :=
  g_state g = g_state g' /\ g_ref g = g_ref g' /\ (secret (g_state g) = true \/ crel (g_mem g) (g_mem g')).
Definition low (s s' : state) : Prop :=
  (forall g, s_locks s g = s_locks s' g) /\ (forall x, s_slots s x = s_slots s' x) /\
  (forall v, s_vmids s v = s_vmids s' v) /\ (forall g, glow (s_gr s g) (s_gr s' g)).
Definition pub (P : list N) (s s' : state) : Prop := forall g, In g P -> crel (g_mem (s_gr s g)) (g_mem (s_gr s' g)).

Definition alike {A B} (Q : list N -> A -> B -> Prop) (o : outcome A) (o' : outcome B) : Prop :=
  match o, o' with
  | Done a t, Done a' t' => low t t' /\ exists P, pub P t t' /\ Q P a a'
  | Panicked, Panicked | Deadlock, Deadlock => True
  | _, _ => False
  end.

Lemma low_lock : forall s s' g b, low s s' -> low (set_lock s g b) (set_lock s' g b).
Proof. intros s s' g b (H1 & H2 & H3 & H5). repeat split; cbn; auto; try apply H5. intros z. unfold upd. destruct (z =? g); auto. Qed.
Lemma low_slot : forall s s' g b, low s s' -> low (set_slot s g b) (set_slot s' g b).
Proof. intros s s' g b (H1 & H2 & H3 & H5). repeat split; cbn; auto; try apply H5. intros z. unfold upd. destruct (z =? g); auto. Qed.
Lemma low_vmid : forall s s' g b, low s s' -> low (set_vmid s g b) (set_vmid s' g b).
Proof. intros s s' g b (H1 & H2 & H3 & H5). repeat split; cbn; auto; try apply H5. intros z. unfold upd. destruct (z =? g); auto. Qed.
Lemma low_tlb : forall s s' l l', low s s' -> low (set_tlb s l) (set_tlb s' l').
Proof. intros s s' l l' (H1 & H2 & H3 & H5). repeat split; cbn; auto; apply H5. Qed.
Lemma low_gr : forall s s' a g g', low s s' -> glow g g' -> low (set_gr s a g) (set_gr s' a g').
Proof.
  intros s s' a g g' (H1 & H2 & H3 & H5) K. refine (conj H1 (conj H2 (conj H3 _))).
  intros z. cbn. unfold upd. destruct (z =? a); auto.
Qed.
Lemma pub_gr : forall s s' a g g' P, pub P s s' -> (In a P -> crel (g_mem g) (g_mem g')) -> pub P (set_gr s a g) (set_gr s' a g').
Proof. intros s s' a g g' P H K z Z. cbn. unfold upd. destruct (z =? a) eqn:E; [apply N.eqb_eq in E; subst; auto|auto]. Qed.

Theorem ni_sound : forall A B (p : prog A) (p' : prog B) P Q s s', ni P p p' Q -> low s s' -> pub P s s' -> alike Q (run p s) (run p' s').
Proof.
  intros A B p. induction p; intros p' P Q s s' D W V; clash p'; cbn [run];
    repeat match goal with D : _ /\ _ |- _ => destruct D end; subst;
    pose proof W as (W1 & W2 & W3 & W5).
  - destruct D as (L & D & E). cbn. split; [exact W|]. exists L. split; [|exact E]. intros y Y. apply V, D, Y.
  - exact I.
  - rewrite <- (W1 g0). destruct (s_locks s g0); [exact I|]. eapply IHp; eauto. apply low_lock, W.
  - rewrite <- (W1 g0). destruct (s_locks s g0); [|exact I]. eapply IHp; eauto. apply low_lock, W.
  - rewrite <- (W1 g0). destruct (s_locks s g0); [|exact I]. eapply IHp; eauto.
  - rewrite <- (W2 slot0). destruct (s_slots s slot0); [exact I|]. eapply IHp; eauto. apply low_slot, W.
  - rewrite <- (W2 slot0). destruct (s_slots s slot0); [|exact I]. eapply IHp; eauto. apply low_slot, W.
  - destruct (W5 g0) as (E1 & E2 & E3). rewrite <- E1. eapply H; [apply H1|exact W|].
    destruct (secret _) eqn:S; [exact V|]. intros y [<-|Y]; [|apply V, Y]. destruct E3 as [E3|E3]; [congruence|exact E3].
  - destruct (W5 g0) as (E1 & E2 & E3). eapply IHp; eauto.
    + apply low_gr; [exact W|]. split; [reflexivity|]. split; [exact E2|]. cbn. destruct H1 as [H1|H1]; [left; exact H1|right; apply V, H1].
    + apply pub_gr; [exact V|]. intros I0. apply V, I0.
  - destruct (W5 g0) as (E1 & E2 & E3). rewrite <- E2. eapply H; eauto.
  - destruct (W5 g0) as (E1 & E2 & E3). rewrite <- E2. eapply H; [eauto| |].
    + apply low_gr; [exact W|]. split; [exact E1|]. split; [reflexivity|]. exact E3.
    + apply pub_gr; [exact V|]. intros I0. apply V, I0.
  - eapply H; [|exact W|exact V]. apply H2. apply V. assumption.
  - destruct (W5 g0) as (E1 & E2 & E3). eapply IHp; [eauto| |].
    + apply low_gr; [exact W|]. split; [exact E1|]. split; [exact E2|]. right. assumption.
    + intros y Y. cbn. unfold upd. destruct (y =? g0) eqn:E; [assumption|]. apply N.eqb_neq in E. destruct Y as [Y|Y]; [congruence|apply V, Y].
  - pose proof (V g0 H2) as (K & _). unfold content_agree in K.
    destruct (g_mem (s_gr s g0)) eqn:E1; destruct (g_mem (s_gr s' g0)) eqn:E2; try contradiction; try exact I.
    rewrite <- K. eapply H; eauto.
  - pose proof (V g0 H2) as K0. pose proof K0 as (K & _). unfold content_agree in K. destruct (W5 g0) as (E3 & E4 & E5).
    destruct (g_mem (s_gr s g0)) eqn:E1; destruct (g_mem (s_gr s' g0)) eqn:E2; try contradiction; try exact I.
    assert (C : crel (CW (upd f i0 w0)) (CW (upd f0 i0 w0))).
    { split; [|exact I]. intros z. unfold upd. destruct (z =? i0); auto. }
    eapply IHp; [eauto| |].
    + apply low_gr; [exact W|]. split; [exact E3|]. split; [exact E4|]. right. exact C.
    + apply pub_gr; [exact V|]. intros _. exact C.
  - rewrite <- (W3 v0). eapply H; eauto. apply low_vmid, W.
  - eapply IHp; eauto. apply low_vmid, W.
  - eapply IHp; [eauto|apply low_tlb, W|exact V].
Qed.

(** ** Programs that neither read nor write memory and states *)
Fixpoint plain {A} (p : prog A) : Prop :=
  match p with
  | Ret _ | Panic => True
  | Lock _ k | Unlock _ k | AssertLocked _ k | MapSlot _ k | UnmapSlot _ k | Tlbi _ _ _ k | VmidClear _ k => plain k
  | RdState _ k => forall v, plain (k v)
  | RdRef _ k => forall v, plain (k v)
  | AddRef _ _ k => forall v, plain (k v)
  | VmidSet _ k => forall v, plain (k v)
  | _ => False
  end.
Lemma plain_bind : forall A B (p : prog A) (f : A -> prog B), plain p -> (forall a, plain (f a)) -> plain (bind p f).
Proof. intros A B p f. induction p; cbn [plain bind]; intros; auto; try contradiction. Qed.
Lemma plain_ni : forall A (p : prog A) P (Q : list N -> A -> A -> Prop), plain p -> (forall a, Q P a a) -> ni P p p Q.
Proof.
  intros A p. induction p; intros P Q D C; cbn [plain ni] in *; auto; try contradiction.
  - exists P. split; [apply incl_refl|apply C].
  - split; [reflexivity|]. intros v0. apply (ni_mono _ _ _ _ P); [|apply H; auto].
    destruct (secret v0); [apply incl_refl|apply incl_tl, incl_refl].
Qed.

End Ni.

Lemma plain_assert : forall b, plain (assert_ b).
Proof. intros []; exact I. Qed.
Ltac plains :=
  repeat first
    [ exact I | assumption
    | progress (cbv beta iota zeta)
    | apply plain_assert
    | apply plain_bind; [|intros ?]
    | match goal with
      | |- plain (if ?b then _ else _) => destruct b
      | |- plain (match ?b with _ => _ end) => destruct b
      | |- plain (lock_ _) => exact I
      | |- plain (unlock_ _) => exact I
      | |- plain (map_slot _) => exact I
      | |- plain (Ret _) => exact I
      | |- plain Panic => exact I
      | |- plain (unmap_slot _) => exact I
      | |- plain (rd_state_ _) => intros ?; exact I
      | |- plain (rd_ref _) => intros ?; exact I
      | |- plain (add_ref _ _) => intros ?; exact I
      | |- plain (vmid_set _) => intros ?; exact I
      | |- plain (tlbi _ _ _) => exact I
      | |- plain (vmid_clear _) => exact I
      | |- plain (assert_locked _) => exact I
      end ].

Lemma l_addr_to_granule : forall c a, plain (addr_to_granule c a).
Proof. intros. unfold addr_to_granule. plains. Qed.
Lemma l_pa : forall x w l, plain (s2tte_pa_ x w l).
Proof. intros. unfold s2tte_pa_. plains. Qed.
Lemma l_aligned : forall x w l, plain (addr_lvl_aligned_ x w l).
Proof. intros. unfold addr_lvl_aligned_. plains. Qed.
Lemma l_state : forall g, plain (granule_get_state g).
Proof. intros. unfold granule_get_state. plains. Qed.
Lemma l_inv : forall g s, plain (assert_unlocked_invariants g s).
Proof. intros. unfold assert_unlocked_invariants. plains. Qed.
Lemma l_unlock : forall g, plain (granule_unlock g).
Proof. intros. unfold granule_unlock. plains; try apply l_state; try apply l_inv. Qed.
Lemma l_unlock_all : forall l, plain (unlock_all l).
Proof. intros l. induction l; cbn [unlock_all]; [exact I|]. apply plain_bind; [apply l_unlock|intros _; exact IHl]. Qed.
Lemma l_inc : forall g v, plain (granule_refcount_inc g v).
Proof. intros. unfold granule_refcount_inc. plains. Qed.
Lemma l_dec : forall g v, plain (granule_refcount_dec g v).
Proof. intros. unfold granule_refcount_dec. plains. Qed.
Lemma l_put_release : forall g, plain (atomic_granule_put_release g).
Proof. intros. unfold atomic_granule_put_release. plains. Qed.
Lemma l_ref_read : forall g, plain (granule_refcount_read_acquire g).
Proof. intros. unfold granule_refcount_read_acquire. plains. Qed.
Lemma l_map_addr : forall a l r, plain (validate_map_addr a l r).
Proof. intros. unfold validate_map_addr. destruct (_ <? _); [apply l_aligned|exact I]. Qed.
Lemma l_structure : forall a l r, plain (validate_rtt_structure_cmds a l r).
Proof. intros. unfold validate_rtt_structure_cmds. cbv zeta. destruct (_ || _); [exact I|apply l_map_addr]. Qed.
Lemma l_mapc : forall a l r, plain (validate_rtt_map_cmds a l r).
Proof. intros. unfold validate_rtt_map_cmds. destruct (_ || _); [exact I|apply l_map_addr]. Qed.
Lemma l_entryc : forall a l r, plain (validate_rtt_entry_cmds a l r).
Proof. intros. unfold validate_rtt_entry_cmds. destruct (_ || _); [exact I|apply l_map_addr]. Qed.
Lemma l_create_ns : forall x w l, plain (s2tte_create_assigned_ns_ x w l).
Proof. intros. unfold s2tte_create_assigned_ns_. plains. Qed.
Lemma l_read_entry : forall x w l, plain (read_entry_result x w l).
Proof. intros. unfold read_entry_result. plains; try apply l_pa. Qed.
Lemma l_unknown : forall a r, plain (validate_data_create_unknown a r).
Proof. intros. unfold validate_data_create_unknown. plains; try apply l_map_addr. Qed.
Lemma l_data : forall a r, plain (validate_data_create a r).
Proof. intros. unfold validate_data_create. plains; try apply l_unknown. Qed.
Lemma l_update : forall x w l v ch, plain (update_ripas x w l v ch).
Proof. intros. unfold update_ripas. plains; try apply l_pa. Qed.
Lemma l_inv_page : forall x a, plain (s2tt_invalidate_page x a).
Proof. intros. exact I. Qed.
Lemma l_inv_block : forall x a, plain (s2tt_invalidate_block x a).
Proof. intros. exact I. Qed.
Lemma l_inv_pages : forall x a, plain (s2tt_invalidate_pages_in_block x a).
Proof. intros. exact I. Qed.
Lemma l_reserve : forall c v, plain (vmid_reserve c v).
Proof. intros. unfold vmid_reserve. plains. Qed.
Lemma l_vfree : forall c v, plain (vmid_free c v).
Proof. intros. unfold vmid_free. plains. Qed.
Lemma l_rparams : forall c p a, plain (get_realm_params c p a).
Proof. intros. unfold get_realm_params. plains. Qed.
Lemma l_vparams : forall c p, plain (validate_realm_params c p).
Proof. intros. unfold validate_realm_params. destruct (realm_params_valid c p); [apply l_reserve|exact I]. Qed.
Lemma l_map_aux : forall l i, plain (map_aux l i).
Proof. intros l. induction l; intros i; cbn [map_aux]; [exact I|]. apply plain_bind; [exact I|intros _; apply IHl]. Qed.
Lemma l_unmap_aux : forall l i, plain (unmap_aux l i).
Proof. intros l. induction l; intros i; cbn [unmap_aux]; [exact I|]. apply plain_bind; [exact I|intros _; apply IHl]. Qed.
Lemma l_aux_init : forall l, plain (rec_aux_granules_init l).
Proof.
  intros l. unfold rec_aux_granules_init. apply plain_bind; [apply l_map_aux|intros _].
  apply plain_bind; [apply plain_assert|intros _; apply l_unmap_aux].
Qed.
Lemma l_lock_match : forall g st, plain (granule_lock_on_state_match g st).
Proof. intros. unfold granule_lock_on_state_match. plains; try apply l_state; try apply l_inv. Qed.
Lemma l_lock : forall g st, plain (granule_lock g st).
Proof. intros. unfold granule_lock. plains; try apply l_lock_match. Qed.
Lemma l_total : forall l n, plain (total_root_rtt_refcount l n).
Proof.
  intros l. induction l; intros n; cbn [total_root_rtt_refcount]; [exact I|]. apply plain_bind; [apply l_lock|intros _].
  apply plain_bind; [intros ?; exact I|intros v]. apply plain_bind; [apply l_unlock|intros _; apply IHl].
Qed.

(** ** The structures in granules *)
Definition with_meas (d : rdesc) (mm : N -> N) : rdesc :=
  mkRd (rd_state d) (rd_rec_count d) mm (rd_ctx d) (rd_num_rec_aux d) (rd_algorithm d) (rd_pmu_enabled d) (rd_pmu_num_ctrs d) (rd_simd d) (rd_rpv d).
Lemma public_meas : forall d d', rd_public d = rd_public d' -> d' = with_meas d (rd_meas d').
Proof. intros [] [] E. unfold rd_public in E. cbn in *. unfold with_meas. cbn. congruence. Qed.

Lemma all_zero_ext : forall f f', (forall i, f i = f' i) -> all_zero f = all_zero f'.
Proof. intros f f' E. unfold all_zero. induction idx512; cbn; [reflexivity|]. rewrite E. congruence. Qed.

Section Lemmas.
Variable J : recd -> Prop.
Hypothesis J0 : J rec_zero.
Notation ni := (ni J).

Lemma n_lock_match : forall g st P (Q : list N -> bool -> bool -> Prop), secret st = false -> Q P false false -> Q (g :: P) true true ->
  ni P (granule_lock_on_state_match g st) (granule_lock_on_state_match g st) Q.
Proof.
  intros g st P Q S F T. unfold granule_lock_on_state_match. apply ni_bind. cbn [lock_ Ni.ni]. split; [reflexivity|].
  exists P. split; [apply incl_refl|]. apply ni_bind. unfold granule_get_state. apply ni_bind. cbn [assert_locked Ni.ni].
  split; [reflexivity|]. exists P. split; [apply incl_refl|]. cbn [rd_state_ Ni.ni]. split; [reflexivity|]. intros v.
  eexists. split; [apply incl_refl|]. destruct (gstate_eqb v st) eqn:E; cbn [negb].
  - assert (v = st) by (destruct v, st; try reflexivity; discriminate E). subst v. rewrite S.
    apply ni_bind. apply plain_ni; [apply l_inv|]. intros _. apply ni_ret, T.
  - apply ni_bind. apply plain_ni; [exact I|]. intros _. exists P. split; [|exact F]. destruct (secret v); [apply incl_refl|apply incl_tl, incl_refl].
Qed.

Lemma n_find_lock : forall c g st P (Q : list N -> bool -> bool -> Prop), secret st = false -> Q P false false -> Q (g :: P) true true ->
  ni P (find_lock_granule c g st) (find_lock_granule c g st) Q.
Proof. intros c g st P Q S F T. unfold find_lock_granule. destruct (find_granule c g); [apply n_lock_match; assumption|apply ni_ret, F]. Qed.

Lemma n_find_any : forall c g st P (Q : list N -> bool -> bool -> Prop), Q P false false -> Q P true true ->
  ni P (find_lock_granule c g st) (find_lock_granule c g st) Q.
Proof.
  intros c g st P Q F T. unfold find_lock_granule. destruct (find_granule c g); [|apply ni_ret, F].
  apply plain_ni; [apply l_lock_match|]. intros []; assumption.
Qed.

Lemma n_assert : forall b P (Q : list N -> unit -> unit -> Prop), (b = true -> Q P tt tt) -> ni P (assert_ b) (assert_ b) Q.
Proof. intros [] P Q K; cbn; [|exact I]. exists P. split; [apply incl_refl|auto]. Qed.

Lemma n_lock : forall g st P (Q : list N -> unit -> unit -> Prop), secret st = false -> Q (g :: P) tt tt ->
  ni P (granule_lock g st) (granule_lock g st) Q.
Proof.
  intros g st P Q S K. unfold granule_lock. apply ni_bind. apply n_lock_match; [exact S|exact I|]. apply n_assert. intros _. exact K.
Qed.

Lemma n_find_unused : forall c g st P (Q : list N -> find_unused -> find_unused -> Prop), secret st = false ->
  Q P FInval FInval -> Q (g :: P) FBusy FBusy -> Q (g :: P) FOk FOk -> ni P (find_lock_unused_granule c g st) (find_lock_unused_granule c g st) Q.
Proof.
  intros c g st P Q S F B T. unfold find_lock_unused_granule. apply ni_bind. apply n_find_lock; [exact S|apply ni_ret, F|].
  cbn [negb]. apply ni_bind. apply plain_ni; [apply l_ref_read|]. intros n. destruct (negb _); [|apply ni_ret, T].
  apply ni_bind. apply plain_ni; [apply l_unlock|]. intros _. apply ni_ret, B.
Qed.

Lemma n_find_two : forall c a1 s1 a2 s2 P (Q : list N -> bool -> bool -> Prop), secret s1 = false -> secret s2 = false ->
  Q P false false -> (forall L, incl (a1 :: a2 :: P) L -> a1 <> a2 -> Q L true true) ->
  ni P (find_lock_two_granules c a1 s1 a2 s2) (find_lock_two_granules c a1 s1 a2 s2) Q.
Proof.
  intros c a1 s1 a2 s2 P Q S1 S2 F T. unfold find_lock_two_granules, find_lock_granules.
  assert (F' : forall z, ni (z :: P) (Ret false) (Ret false) Q) by (intros z; exists P; split; [apply incl_tl, incl_refl|exact F]).
  assert (X : forall a s b t, secret s = false -> secret t = false -> (a <> b -> Q (b :: a :: P) true true) ->
     ni P (find_lock_loop c [] [(a, s); (b, t)]) (find_lock_loop c [] [(a, s); (b, t)]) Q).
  { intros a s b t E1 E2 K. cbn [find_lock_loop]. apply ni_bind. apply n_find_lock; [exact E1| |].
    - apply ni_bind. apply plain_ni; [apply l_unlock_all|]. intros _. apply ni_ret, F.
    - destruct (b =? a) eqn:E.
      + apply ni_bind. apply plain_ni; [apply l_unlock_all|]. intros _. apply F'.
      + apply N.eqb_neq in E. apply ni_bind. apply n_find_lock; [exact E2| |].
        * apply ni_bind. apply plain_ni; [apply l_unlock_all|]. intros _. apply F'.
        * apply ni_ret, K. congruence. }
  unfold sort_granules. cbn [fold_left insert_gs fst]. destruct (a2 <? a1) eqn:E.
  - apply X; auto. intros NE. apply T; [apply incl_refl|congruence].
  - apply X; auto. intros NE. apply T; [|exact NE]. intros z [<-|[<-|Z]]; cbn; auto.
Qed.

Lemma n_set_state : forall g st P (Q : list N -> unit -> unit -> Prop), secret st = true \/ In g P -> Q P tt tt ->
  ni P (granule_set_state g st) (granule_set_state g st) Q.
Proof.
  intros g st P Q S K. unfold granule_set_state. apply ni_bind, plain_ni; [exact I|]. intros _. cbn [wr_state Ni.ni].
  repeat (split; [reflexivity || assumption|]). exists P. split; [apply incl_refl|exact K].
Qed.
Lemma n_transition : forall g st P (Q : list N -> unit -> unit -> Prop), secret st = true \/ In g P -> Q P tt tt ->
  ni P (granule_unlock_transition g st) (granule_unlock_transition g st) Q.
Proof.
  intros g st P Q S K. unfold granule_unlock_transition. apply ni_bind. apply n_set_state; [exact S|].
  apply plain_ni; [apply l_unlock|]. intros []. exact K.
Qed.
Lemma n_wr_mem : forall g x x' P (Q : list N -> unit -> unit -> Prop), crel J x x' -> Q (g :: P) tt tt ->
  ni P (wr_mem g x) (wr_mem g x') Q.
Proof. intros g x x' P Q C K. cbn. split; [reflexivity|]. split; [exact C|]. eexists. split; [apply incl_refl|exact K]. Qed.
Lemma n_words : forall g f f' P (Q : list N -> unit -> unit -> Prop), (forall i, f i = f' i) -> Q (g :: P) tt tt ->
  ni P (wr_mem g (CW f)) (wr_mem g (CW f')) Q.
Proof. intros. apply n_wr_mem; [split; [assumption|exact I]|assumption]. Qed.
Lemma n_put_rd : forall g d mm P (Q : list N -> unit -> unit -> Prop), Q (g :: P) tt tt ->
  ni P (put_rd g d) (put_rd g (with_meas d mm)) Q.
Proof. intros. apply n_wr_mem; [split; [reflexivity|exact I]|assumption]. Qed.
Lemma n_put_rd2 : forall g d d' P (Q : list N -> unit -> unit -> Prop), rd_public d = rd_public d' -> Q (g :: P) tt tt ->
  ni P (put_rd g d) (put_rd g d') Q.
Proof. intros. apply n_wr_mem; [split; [assumption|exact I]|assumption]. Qed.
Lemma n_put_rec : forall g r r' P (Q : list N -> unit -> unit -> Prop), rec_agree r r' -> J r -> Q (g :: P) tt tt ->
  ni P (put_rec g r) (put_rec g r') Q.
Proof. intros. apply n_wr_mem; [split; assumption|assumption]. Qed.
Lemma n_memzero_mapped : forall g P (Q : list N -> unit -> unit -> Prop), Q (g :: P) tt tt ->
  ni P (granule_memzero_mapped g) (granule_memzero_mapped g) Q.
Proof. intros. apply n_words; [reflexivity|assumption]. Qed.
Lemma n_memzero : forall g s P (Q : list N -> unit -> unit -> Prop), Q (g :: P) tt tt ->
  ni P (buffer_granule_memzero g s) (buffer_granule_memzero g s) Q.
Proof.
  intros. unfold buffer_granule_memzero. apply ni_bind, plain_ni; [exact I|intros _]. apply ni_bind. apply n_memzero_mapped.
  apply plain_ni; [exact I|]. intros []. assumption.
Qed.
Lemma n_rd_word : forall g i P (Q : list N -> N -> N -> Prop), In g P -> (forall w, Q P w w) -> ni P (rd_word g i) (rd_word g i) Q.
Proof. intros. cbn. repeat (split; [reflexivity || assumption|]). intros v. eexists. split; [apply incl_refl|auto]. Qed.
Lemma n_wr_word : forall g i w P (Q : list N -> unit -> unit -> Prop), In g P -> Q P tt tt -> ni P (wr_word g i w) (wr_word g i w) Q.
Proof. intros. cbn. repeat (split; [reflexivity || assumption|]). eexists. split; [apply incl_refl|auto]. Qed.

Lemma n_get_rd : forall g P (Q : list N -> rdesc -> rdesc -> Prop), In g P -> (forall d mm, Q P d (with_meas d mm)) ->
  ni P (get_rd g) (get_rd g) Q.
Proof.
  intros g P Q K H. unfold get_rd. apply ni_bind. cbn [rd_mem Ni.ni]. split; [reflexivity|]. split; [exact K|].
  intros x x' (C & _). eexists. split; [apply incl_refl|].
  destruct x, x'; cbn in C; try contradiction; cbn [as_rd].
  - rewrite (all_zero_ext _ _ C). destruct (all_zero f0); [|exact I]. apply ni_ret. exact (H rd_zero (fun _ => 0)).
  - rewrite (public_meas _ _ C). apply ni_ret, H.
  - exact I.
Qed.
Lemma n_get_rec : forall g P (Q : list N -> recd -> recd -> Prop), In g P -> (forall r r', rec_agree r r' -> J r -> Q P r r') ->
  ni P (get_rec g) (get_rec g) Q.
Proof.
  intros g P Q K H. unfold get_rec. apply ni_bind. cbn [rd_mem Ni.ni]. split; [reflexivity|]. split; [exact K|].
  intros x x' (C & Z). eexists. split; [apply incl_refl|].
  destruct x, x'; cbn in C; try contradiction; cbn [as_rec].
  - rewrite (all_zero_ext _ _ C). destruct (all_zero f0); [|exact I]. apply ni_ret. apply H; [|exact J0]. split; [reflexivity|]. split; reflexivity.
  - exact I.
  - apply ni_ret, H; assumption.
Qed.
Lemma n_get_table : forall g P (Q : list N -> table -> table -> Prop), In g P -> (forall t t', (forall i, t i = t' i) -> Q P t t') ->
  ni P (get_table g) (get_table g) Q.
Proof.
  intros g P Q K H. unfold get_table. apply ni_bind. cbn [rd_mem Ni.ni]. split; [reflexivity|]. split; [exact K|].
  intros x x' (C & Z). eexists. split; [apply incl_refl|].
  destruct x, x'; cbn in C; try contradiction; [|exact I|exact I]. apply ni_ret, H, C.
Qed.

(** ** Tables *)
Lemma n_entry : forall g i P (Q : list N -> N -> N -> Prop), In g P -> (forall w, Q P w w) -> ni P (table_get_entry g i) (table_get_entry g i) Q.
Proof.
  intros g i P Q K H. unfold table_get_entry. apply ni_bind, plain_ni; [exact I|intros _]. apply ni_bind. apply n_rd_word; [exact K|]. intros w.
  apply ni_bind, plain_ni; [exact I|intros _]. apply ni_ret, H.
Qed.
Lemma n_next_level : forall c x g a l P (Q : list N -> option N -> option N -> Prop), In g P ->
  Q P None None -> (forall g', Q (g' :: P) (Some g') (Some g')) -> ni P (find_lock_next_level c x g a l) (find_lock_next_level c x g a l) Q.
Proof.
  intros c x g a l P Q K F T. unfold find_lock_next_level. apply ni_bind, n_entry; [exact K|]. intros w.
  destruct (negb _); [apply ni_ret, F|]. apply ni_bind, plain_ni; [apply l_addr_to_granule|intros g'].
  apply ni_bind. apply n_lock; [reflexivity|]. apply ni_ret, T.
Qed.
Lemma n_walk_loop : forall c x a f g i P (Q : list N -> walk -> walk -> Prop), In g P ->
  (forall wi L, incl (w_llt wi :: P) L -> Q L wi wi) -> ni P (walk_loop f c x a g i) (walk_loop f c x a g i) Q.
Proof.
  intros c x a f. induction f as [|f IH]; intros g i P Q N K; cbn [walk_loop].
  - apply ni_ret. apply K. intros z [<-|Z]; assumption.
  - apply ni_bind. apply n_next_level; [exact N| |].
    + apply ni_ret. apply K. intros z [<-|Z]; assumption.
    + intros g'. apply ni_bind, plain_ni; [apply l_unlock|intros _]. apply IH; [left; reflexivity|].
      intros wi L S. apply K. intros z [<-|Z]; apply S; [left; reflexivity|right; right; exact Z].
Qed.
Lemma n_walk : forall c x a l P (Q : list N -> walk -> walk -> Prop), In (g_rtt x) P ->
  (forall wi L, incl (w_llt wi :: P) L -> Q L wi wi) -> ni P (s2tt_walk_lock_unlock c x a l) (s2tt_walk_lock_unlock c x a l) Q.
Proof.
  intros c x a l P Q N K. unfold s2tt_walk_lock_unlock. do 4 (apply ni_bind, n_assert; intros _). cbv zeta.
  apply ni_bind. destruct (_ <=? _).
  - apply ni_bind, n_assert. intros _. apply ni_bind. apply n_lock; [reflexivity|].
    apply ni_bind, plain_ni; [apply l_unlock|intros _]. apply ni_ret. apply n_walk_loop; [left; reflexivity|].
    intros wi L S. apply K. intros z [<-|Z]; apply S; [left; reflexivity|right; right; exact Z].
  - apply ni_ret. apply n_walk_loop; assumption.
Qed.

Lemma uniform_ext : forall t t' p, (forall i : N, t i = t' i) -> table_is_uniform_block t p = table_is_uniform_block t' p.
Proof. intros t t' p E. unfold table_is_uniform_block. induction idx512; cbn; [reflexivity|]. rewrite E. congruence. Qed.
Lemma forallb_ext : forall (f g : N -> bool) l, (forall i, f i = g i) -> forallb f l = forallb g l.
Proof. intros f g l E. induction l; cbn; [reflexivity|]. rewrite E. congruence. Qed.
Lemma maps_ext : forall b t t' l p q, (forall i : N, t i = t' i) -> table_maps_block b t l p q = table_maps_block b t' l p q.
Proof.
  intros b t t' l p q E. unfold table_maps_block. cbv zeta. rewrite (E 0). destruct (negb _); [reflexivity|]. destruct (negb _); [reflexivity|].
  apply forallb_ext. intros i. rewrite !E. reflexivity.
Qed.
Lemma scan_ext : forall t t' l, (forall i : N, t i = t' i) -> forall f i, skip_scan f t l i = skip_scan f t' l i.
Proof. intros t t' l E f. induction f; intros i; cbn [skip_scan]; [reflexivity|]. rewrite E, IHf. reflexivity. Qed.
Lemma skip_ext : forall a t t' l i, (forall i : N, t i = t' i) -> s2tt_skip_non_live_entries a t l i = s2tt_skip_non_live_entries a t' l i.
Proof. intros a t t' l i E. unfold s2tt_skip_non_live_entries. rewrite E, (scan_ext _ _ _ E). reflexivity. Qed.
Lemma n_skip : forall x a t t' w P (Q : list N -> N -> N -> Prop), (forall i, t i = t' i) -> (forall n, Q P n n) ->
  ni P (s2tt_skip_non_live_entries_ x a t w) (s2tt_skip_non_live_entries_ x a t' w) Q.
Proof.
  intros x a t t' w P Q E K. unfold s2tt_skip_non_live_entries_. apply ni_bind, n_assert. intros _.
  rewrite (skip_ext _ _ _ _ _ E). apply ni_ret, K.
Qed.
Lemma n_maps : forall x t t' l p q P (Q : list N -> bool -> bool -> Prop), (forall i, t i = t' i) -> (forall n, Q P n n) ->
  ni P (table_maps_block_ x t l p q) (table_maps_block_ x t' l p q) Q.
Proof.
  intros x t t' l p q P Q E K. unfold table_maps_block_. cbv zeta. apply ni_bind, n_assert. intros _.
  rewrite (forallb_ext (fun i => negb (p (t' i) l) || s2tte_has_pa (t' i) l) (fun i => negb (p (t i) l) || s2tte_has_pa (t i) l))
    by (intros i; rewrite E; reflexivity).
  rewrite (maps_ext _ _ _ _ _ _ E), E. apply ni_bind, n_assert. intros _. destruct (p _ _); [|apply ni_ret, K].
  apply ni_bind, n_assert. intros _. apply ni_ret, K.
Qed.
Lemma n_fold_parent : forall x llt g t t' l ll P (Q : list N -> N + N -> N + N -> Prop), (forall i, t i = t' i) -> (forall n, Q P n n) ->
  ni P (fold_parent_s2tte x llt g t l ll) (fold_parent_s2tte x llt g t' l ll) Q.
Proof.
  intros x llt g t t' l ll P Q E K. unfold fold_parent_s2tte. cbv zeta. apply ni_bind, plain_ni; [intros ?; exact I|]. intros ref.
  rewrite <- !(uniform_ext t t' _ E), <- !(E 0).
  repeat match goal with |- Ni.ni _ _ (if ?b then _ else _) _ _ => destruct b end;
    try (apply ni_ret; apply K);
    try (apply ni_bind, plain_ni; [apply l_dec|intros _]; apply ni_ret; apply K).
  - apply ni_bind. apply n_maps; [exact E|]. intros b. destruct b; [|apply ni_ret; apply K].
    destruct (_ <=? _)%Z; [apply ni_ret; apply K|].
    apply ni_bind, plain_ni; [apply l_create_ns|]. intros w. apply ni_bind, plain_ni; [apply l_dec|intros _]; apply ni_ret; apply K.
  - apply ni_bind, plain_ni; [apply l_pa|]. intros pa.
    repeat (apply ni_bind; apply n_maps; [exact E|]; intros b; destruct b;
      [apply ni_bind, n_assert; intros _; apply ni_bind, plain_ni; [apply l_dec|intros _]; apply ni_ret; apply K|]).
    apply ni_ret; apply K.
Qed.
End Lemmas.
