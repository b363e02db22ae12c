(** Symbolic execution of programs: [wp E p s Q] says that running [p] from [s]
    ends in a result and a state satisfying [Q]; a panic is tolerated only when
    [E] holds, a deadlock never. *)
From Coq Require Import NArith ZArith List Bool Lia ZifyBool ZifyN.
From Verif Require Import Bits S2tte State Granule.
Import ListNotations.
Local Open Scope N_scope.

Definition wp {A} (E : Prop) (p : prog A) (s : state) (Q : A -> state -> Prop) : Prop :=
  match run p s with Done a s' => Q a s' | Panicked => E | Deadlock => False end.

Lemma run_bind : forall A B (p : prog A) (f : A -> prog B) s,
  run (bind p f) s = match run p s with Done a s' => run (f a) s' | Panicked => Panicked | Deadlock => Deadlock end.
Proof.
  intros A B p f. induction p; intro s0; cbn; auto.
  - destruct (s_locks s0 g); auto.
  - destruct (s_locks s0 g); auto.
  - destruct (s_locks s0 g); auto.
  - destruct (s_slots s0 slot); auto.
  - destruct (s_slots s0 slot); auto.
  - destruct (g_mem (s_gr s0 g)); auto.
  - destruct (g_mem (s_gr s0 g)); auto.
Qed.

Lemma wp_bind : forall A B E (p : prog A) (f : A -> prog B) s Q,
  wp E p s (fun a s' => wp E (f a) s' Q) -> wp E (bind p f) s Q.
Proof.
  intros A B E p f s Q H. unfold wp in *. rewrite run_bind. destruct (run p s); auto.
Qed.

Lemma wp_ret : forall A E (a : A) s (Q : A -> state -> Prop), Q a s -> wp E (Ret a) s Q.
Proof. intros. assumption. Qed.

Lemma wp_conseq : forall A (E E' : Prop) (p : prog A) s (Q Q' : A -> state -> Prop),
  wp E p s Q -> (E -> E') -> (forall a s', Q a s' -> Q' a s') -> wp E' p s Q'.
Proof. intros A E E' p s Q Q' H HE HQ. unfold wp in *. destruct (run p s); auto. Qed.

Lemma wp_done : forall A E (p : prog A) s Q a s', wp E p s Q -> run p s = Done a s' -> Q a s'.
Proof. intros A E p s Q a s' H R. unfold wp in H. rewrite R in H. exact H. Qed.

Lemma wp_nopanic : forall A (p : prog A) s Q, wp False p s Q -> exists a s', run p s = Done a s' /\ Q a s'.
Proof. intros A p s Q H. unfold wp in H. destruct (run p s); try contradiction. eauto. Qed.

Lemma upd_same : forall A (f : N -> A) k v, upd f k v k = v.
Proof. intros. unfold upd. rewrite N.eqb_refl. reflexivity. Qed.
Lemma upd_other : forall A (f : N -> A) k v x, x <> k -> upd f k v x = f x.
Proof. intros. unfold upd. rewrite (proj2 (N.eqb_neq _ _)) by assumption. reflexivity. Qed.

Lemma gstate_eqb_eq : forall a b, gstate_eqb a b = true <-> a = b.
Proof. intros [] []; cbn; split; congruence. Qed.
Lemma gstate_eqb_refl : forall a, gstate_eqb a a = true.
Proof. intros []; reflexivity. Qed.

(** The descriptor satisfies the invariant of unlocked granules *)
Definition uok (x : granule) : Prop := unlocked_inv (g_state x) (g_ref x) = true.

Section Rules.
Variable E : Prop.
Implicit Types (L S : N -> bool) (G : N -> granule) (V : N -> bool) (T : list tlbe).

Lemma wp_lock : forall g L S G V T (Q : _ -> state -> Prop), L g = false ->
  Q tt (mkS (upd L g true) S G V T) -> wp E (lock_ g) (mkS L S G V T) Q.
Proof. intros * H HQ. unfold wp. cbn. rewrite H. exact HQ. Qed.
Lemma wp_unlock : forall g L S G V T (Q : _ -> state -> Prop), L g = true ->
  Q tt (mkS (upd L g false) S G V T) -> wp E (unlock_ g) (mkS L S G V T) Q.
Proof. intros * H HQ. unfold wp. cbn. rewrite H. exact HQ. Qed.
Lemma wp_assert_locked : forall g L S G V T (Q : _ -> state -> Prop), L g = true ->
  Q tt (mkS L S G V T) -> wp E (assert_locked g) (mkS L S G V T) Q.
Proof. intros * H HQ. unfold wp. cbn. rewrite H. exact HQ. Qed.
Lemma wp_map_slot : forall g L S G V T (Q : _ -> state -> Prop), S g = false ->
  Q tt (mkS L (upd S g true) G V T) -> wp E (map_slot g) (mkS L S G V T) Q.
Proof. intros * H HQ. unfold wp. cbn. rewrite H. exact HQ. Qed.
Lemma wp_unmap_slot : forall g L S G V T (Q : _ -> state -> Prop), S g = true ->
  Q tt (mkS L (upd S g false) G V T) -> wp E (unmap_slot g) (mkS L S G V T) Q.
Proof. intros * H HQ. unfold wp. cbn. rewrite H. exact HQ. Qed.
Lemma wp_rd_state : forall g L S G V T (Q : _ -> state -> Prop),
  Q (g_state (G g)) (mkS L S G V T) -> wp E (rd_state_ g) (mkS L S G V T) Q.
Proof. intros * HQ. exact HQ. Qed.
Lemma wp_wr_state : forall g v L S G V T (Q : _ -> state -> Prop),
  Q tt (mkS L S (upd G g (mkG v (g_ref (G g)) (g_mem (G g)))) V T) -> wp E (wr_state g v) (mkS L S G V T) Q.
Proof. intros * HQ. exact HQ. Qed.
Lemma wp_rd_ref : forall g L S G V T (Q : _ -> state -> Prop),
  Q (g_ref (G g)) (mkS L S G V T) -> wp E (rd_ref g) (mkS L S G V T) Q.
Proof. intros * HQ. exact HQ. Qed.
Lemma wp_add_ref : forall g d L S G V T (Q : _ -> state -> Prop),
  Q (g_ref (G g)) (mkS L S (upd G g (mkG (g_state (G g)) (Z.to_N (Z.of_N (g_ref (G g)) + d)) (g_mem (G g)))) V T) ->
  wp E (add_ref g d) (mkS L S G V T) Q.
Proof. intros * HQ. exact HQ. Qed.
Lemma wp_rd_mem : forall g L S G V T (Q : _ -> state -> Prop),
  Q (g_mem (G g)) (mkS L S G V T) -> wp E (rd_mem g) (mkS L S G V T) Q.
Proof. intros * HQ. exact HQ. Qed.
Lemma wp_wr_mem : forall g m L S G V T (Q : _ -> state -> Prop),
  Q tt (mkS L S (upd G g (mkG (g_state (G g)) (g_ref (G g)) m)) V T) -> wp E (wr_mem g m) (mkS L S G V T) Q.
Proof. intros * HQ. exact HQ. Qed.
Lemma wp_rd_word : forall g i f L S G V T (Q : _ -> state -> Prop), g_mem (G g) = CW f ->
  Q (f i) (mkS L S G V T) -> wp E (rd_word g i) (mkS L S G V T) Q.
Proof. intros * H HQ. unfold wp. cbn. rewrite H. exact HQ. Qed.
Lemma wp_wr_word : forall g i w f L S G V T (Q : _ -> state -> Prop), g_mem (G g) = CW f ->
  Q tt (mkS L S (upd G g (mkG (g_state (G g)) (g_ref (G g)) (CW (upd f i w)))) V T) ->
  wp E (wr_word g i w) (mkS L S G V T) Q.
Proof. intros * H HQ. unfold wp. cbn. rewrite H. exact HQ. Qed.
Lemma wp_tlbi : forall v i n L S G V T (Q : _ -> state -> Prop),
  Q tt (mkS L S G V (tlb_inval v i n T)) -> wp E (tlbi v i n) (mkS L S G V T) Q.
Proof. intros * HQ. exact HQ. Qed.
Lemma wp_vmid_set : forall v L S G V T (Q : _ -> state -> Prop),
  Q (V v) (mkS L S G (upd V v true) T) -> wp E (vmid_set v) (mkS L S G V T) Q.
Proof. intros * HQ. exact HQ. Qed.
Lemma wp_vmid_clear : forall v L S G V T (Q : _ -> state -> Prop),
  Q tt (mkS L S G (upd V v false) T) -> wp E (vmid_clear v) (mkS L S G V T) Q.
Proof. intros * HQ. exact HQ. Qed.
Lemma wp_assert : forall b s (Q : _ -> state -> Prop), b = true -> Q tt s -> wp E (assert_ b) s Q.
Proof. intros * H HQ. rewrite H. exact HQ. Qed.

(** *** lib/granule *)
Lemma wp_get_state : forall g L S G V T (Q : _ -> state -> Prop), L g = true ->
  Q (g_state (G g)) (mkS L S G V T) -> wp E (granule_get_state g) (mkS L S G V T) Q.
Proof. intros * H HQ. apply wp_bind, wp_assert_locked; assumption. Qed.
Lemma wp_set_state : forall g v L S G V T (Q : _ -> state -> Prop), L g = true ->
  Q tt (mkS L S (upd G g (mkG v (g_ref (G g)) (g_mem (G g)))) V T) ->
  wp E (granule_set_state g v) (mkS L S G V T) Q.
Proof. intros * H HQ. apply wp_bind, wp_assert_locked; assumption. Qed.

Lemma wp_granule_unlock : forall g L S G V T (Q : _ -> state -> Prop), L g = true -> uok (G g) ->
  Q tt (mkS (upd L g false) S G V T) -> wp E (granule_unlock g) (mkS L S G V T) Q.
Proof.
  intros * H U HQ. unfold granule_unlock. apply wp_bind, wp_get_state; [assumption|].
  apply wp_bind. unfold assert_unlocked_invariants. apply wp_bind, wp_rd_ref, wp_assert; [exact U|].
  apply wp_unlock; assumption.
Qed.

Lemma wp_unlock_transition : forall g st L S G V T (Q : _ -> state -> Prop), L g = true ->
  unlocked_inv st (g_ref (G g)) = true ->
  Q tt (mkS (upd L g false) S (upd G g (mkG st (g_ref (G g)) (g_mem (G g)))) V T) ->
  wp E (granule_unlock_transition g st) (mkS L S G V T) Q.
Proof.
  intros * H U HQ. unfold granule_unlock_transition. apply wp_bind, wp_set_state; [assumption|].
  apply wp_granule_unlock; [assumption| |assumption]. unfold uok. rewrite upd_same. exact U.
Qed.

(** After a lock attempt that fails the lock bit is as before, but the function
    that tells so is only pointwise equal. *)
Lemma wp_lock_match : forall g st L S G V T (Q : _ -> state -> Prop), L g = false -> uok (G g) ->
  (g_state (G g) = st -> Q true (mkS (upd L g true) S G V T)) ->
  (g_state (G g) <> st -> Q false (mkS (upd (upd L g true) g false) S G V T)) ->
  wp E (granule_lock_on_state_match g st) (mkS L S G V T) Q.
Proof.
  intros * H U Q1 Q2. unfold granule_lock_on_state_match.
  apply wp_bind, wp_lock; [assumption|]. apply wp_bind, wp_get_state; [apply upd_same|].
  destruct (gstate_eqb (g_state (G g)) st) eqn:B; cbn [negb].
  - apply gstate_eqb_eq in B. apply wp_bind. unfold assert_unlocked_invariants.
    apply wp_bind, wp_rd_ref, wp_assert; [rewrite <- B; exact U|]. apply wp_ret, Q1, B.
  - apply wp_bind, wp_unlock; [apply upd_same|]. apply wp_ret, Q2.
    intro C. apply gstate_eqb_eq in C. congruence.
Qed.

Lemma wp_granule_lock : forall g st L S G V T (Q : _ -> state -> Prop), L g = false -> uok (G g) -> g_state (G g) = st ->
  Q tt (mkS (upd L g true) S G V T) -> wp E (granule_lock g st) (mkS L S G V T) Q.
Proof.
  intros * H U Hs HQ. unfold granule_lock. apply wp_bind, wp_lock_match; try assumption.
  - intros _. apply wp_assert; [reflexivity|assumption].
  - intro C. contradiction.
Qed.

Lemma wp_find_lock : forall c g st L S G V T (Q : _ -> state -> Prop), L g = false -> uok (G g) ->
  (find_granule c g = true -> g_state (G g) = st -> Q true (mkS (upd L g true) S G V T)) ->
  (forall L', (forall z, L' z = L z) -> (find_granule c g = false \/ g_state (G g) <> st) ->
     Q false (mkS L' S G V T)) ->
  wp E (find_lock_granule c g st) (mkS L S G V T) Q.
Proof.
  intros * H U Q1 Q2. unfold find_lock_granule. destruct (find_granule c g).
  - apply wp_lock_match; try assumption.
    + intro. apply Q1; auto.
    + intro. apply Q2; [|auto]. intro z. destruct (N.eq_dec z g) as [->|n].
      * rewrite upd_same. congruence.
      * rewrite !upd_other by assumption. reflexivity.
  - apply Q2; auto.
Qed.

Lemma wp_refcount_inc : forall g n L S G V T (Q : _ -> state -> Prop), L g = true -> g_ref (G g) + n <= REFCOUNT_MAX ->
  Q tt (mkS L S (upd G g (mkG (g_state (G g)) (g_ref (G g) + n) (g_mem (G g)))) V T) ->
  wp E (granule_refcount_inc g n) (mkS L S G V T) Q.
Proof.
  intros * H U HQ. unfold granule_refcount_inc. apply wp_bind, wp_assert_locked; [assumption|].
  apply wp_bind, wp_add_ref. replace (Z.to_N (Z.of_N (g_ref (G g)) + Z.of_N n)) with (g_ref (G g) + n) by lia.
  apply wp_assert; [apply N.leb_le; assumption|assumption].
Qed.
Lemma wp_atomic_get : forall g L S G V T (Q : _ -> state -> Prop), L g = true -> g_ref (G g) + 1 <= REFCOUNT_MAX ->
  Q tt (mkS L S (upd G g (mkG (g_state (G g)) (g_ref (G g) + 1) (g_mem (G g)))) V T) ->
  wp E (atomic_granule_get g) (mkS L S G V T) Q.
Proof. intros. apply wp_refcount_inc; assumption. Qed.
Lemma wp_refcount_dec : forall g n L S G V T (Q : _ -> state -> Prop), L g = true -> n <= g_ref (G g) ->
  Q tt (mkS L S (upd G g (mkG (g_state (G g)) (g_ref (G g) - n) (g_mem (G g)))) V T) ->
  wp E (granule_refcount_dec g n) (mkS L S G V T) Q.
Proof.
  intros * H U HQ. unfold granule_refcount_dec. apply wp_bind, wp_assert_locked; [assumption|].
  apply wp_bind, wp_add_ref. replace (Z.to_N (Z.of_N (g_ref (G g)) + - Z.of_N n)) with (g_ref (G g) - n) by lia.
  apply wp_assert; [apply N.leb_le; assumption|assumption].
Qed.
Lemma wp_atomic_put : forall g L S G V T (Q : _ -> state -> Prop), L g = true -> 1 <= g_ref (G g) ->
  Q tt (mkS L S (upd G g (mkG (g_state (G g)) (g_ref (G g) - 1) (g_mem (G g)))) V T) ->
  wp E (atomic_granule_put g) (mkS L S G V T) Q.
Proof. intros. apply wp_refcount_dec; assumption. Qed.
Lemma wp_put_release : forall g L S G V T (Q : _ -> state -> Prop), 1 <= g_ref (G g) ->
  Q tt (mkS L S (upd G g (mkG (g_state (G g)) (g_ref (G g) - 1) (g_mem (G g)))) V T) ->
  wp E (atomic_granule_put_release g) (mkS L S G V T) Q.
Proof.
  intros * U HQ. unfold atomic_granule_put_release. apply wp_bind, wp_add_ref.
  replace (Z.to_N (Z.of_N (g_ref (G g)) + -1)) with (g_ref (G g) - 1) by lia.
  apply wp_assert; [|assumption]. destruct (N.eqb_spec (g_ref (G g)) 0); [lia|reflexivity].
Qed.
Lemma wp_refcount_read : forall g L S G V T (Q : _ -> state -> Prop), L g = true ->
  Q (g_ref (G g)) (mkS L S G V T) -> wp E (granule_refcount_read_acquire g) (mkS L S G V T) Q.
Proof. intros * H HQ. apply wp_bind, wp_assert_locked; assumption. Qed.

Lemma wp_find_lock_unused : forall c g st L S G V T (Q : _ -> state -> Prop), L g = false -> uok (G g) ->
  (find_granule c g = true -> g_state (G g) = st -> g_ref (G g) = 0 -> Q FOk (mkS (upd L g true) S G V T)) ->
  (forall L', (forall z, L' z = L z) -> (find_granule c g = false \/ g_state (G g) <> st) ->
     Q FInval (mkS L' S G V T)) ->
  (forall L', (forall z, L' z = L z) -> find_granule c g = true -> g_state (G g) = st -> g_ref (G g) <> 0 ->
     Q FBusy (mkS L' S G V T)) ->
  wp E (find_lock_unused_granule c g st) (mkS L S G V T) Q.
Proof.
  intros * H U Q1 Q2 Q3. unfold find_lock_unused_granule. apply wp_bind, wp_find_lock; try assumption.
  - intros F Hs. cbn [negb]. apply wp_bind, wp_refcount_read; [apply upd_same|].
    destruct (N.eqb_spec (g_ref (G g)) 0); cbn [negb].
    + apply wp_ret, Q1; assumption.
    + apply wp_bind, wp_granule_unlock; [apply upd_same|assumption|]. apply wp_ret, Q3; try assumption.
      intro z. destruct (N.eq_dec z g) as [->|m]; [rewrite upd_same; congruence|].
      rewrite !upd_other by assumption. reflexivity.
Qed.

Lemma wp_find_lock_two : forall c a1 st1 a2 st2 L S G V T (Q : _ -> state -> Prop),
  (forall z, L z = false) -> (forall z, uok (G z)) ->
  (forall L', (forall z, L' z = upd (upd L a1 true) a2 true z) -> a1 <> a2 ->
     find_granule c a1 = true -> find_granule c a2 = true ->
     g_state (G a1) = st1 -> g_state (G a2) = st2 -> Q true (mkS L' S G V T)) ->
  (forall L', (forall z, L' z = L z) ->
     (a1 = a2 \/ find_granule c a1 = false \/ find_granule c a2 = false \/
      g_state (G a1) <> st1 \/ g_state (G a2) <> st2) -> Q false (mkS L' S G V T)) ->
  wp E (find_lock_two_granules c a1 st1 a2 st2) (mkS L S G V T) Q.
Proof.
  intros * HL U Q1 Q2.
  assert (K : forall b1 t1 b2 t2,
    (forall L', (forall z, L' z = upd (upd L b1 true) b2 true z) -> b1 <> b2 ->
     find_granule c b1 = true -> find_granule c b2 = true ->
     g_state (G b1) = t1 -> g_state (G b2) = t2 -> Q true (mkS L' S G V T)) ->
    (forall L', (forall z, L' z = L z) ->
     (b1 = b2 \/ find_granule c b1 = false \/ find_granule c b2 = false \/
      g_state (G b1) <> t1 \/ g_state (G b2) <> t2) -> Q false (mkS L' S G V T)) ->
    wp E (find_lock_loop c [] [(b1, t1); (b2, t2)]) (mkS L S G V T) Q).
  { clear Q1 Q2. intros b1 t1 b2 t2 Q1 Q2. cbn [find_lock_loop].
    apply wp_bind, wp_find_lock; [apply HL|apply U| |].
    - intros F1 S1. cbn iota. destruct (N.eqb_spec b2 b1) as [->|n].
      + apply wp_bind. cbn [unlock_all]. apply wp_bind, wp_granule_unlock; [apply upd_same|apply U|].
        apply wp_ret, wp_ret, Q2; [|auto]. intro z. destruct (N.eq_dec z b1) as [->|m].
        * rewrite upd_same. symmetry. apply HL.
        * rewrite !upd_other by assumption. reflexivity.
      + apply wp_bind, wp_find_lock; [rewrite upd_other by assumption; apply HL|apply U| |].
        * intros F2 S2. apply wp_ret, Q1; auto.
        * intros L' HL' C. apply wp_bind. cbn [unlock_all]. apply wp_bind, wp_granule_unlock.
          -- rewrite HL', upd_same. reflexivity.
          -- apply U.
          -- apply wp_ret, wp_ret, Q2.
             ++ intro z. destruct (N.eq_dec z b1) as [->|m].
                ** rewrite upd_same. symmetry. apply HL.
                ** rewrite upd_other, HL', upd_other by assumption. reflexivity.
             ++ destruct C; auto.
    - intros L' HL' C. apply wp_bind, wp_ret, wp_ret, Q2; [assumption|]. destruct C; auto. }
  unfold find_lock_two_granules, find_lock_granules, sort_granules. cbn [fold_left insert_gs fst].
  destruct (N.ltb_spec a2 a1).
  - apply K.
    + intros L' HL' n F2 F1 S2 S1. apply Q1; try assumption; [|congruence].
      intro z. rewrite HL'. unfold upd. destruct (z =? a1), (z =? a2); reflexivity.
    + intros L' HL' C. apply Q2; [assumption|].
      destruct C as [C|[C|[C|[C|C]]]]; auto.
  - apply K; assumption.
Qed.

Lemma wp_memzero_mapped : forall g L S G V T (Q : _ -> state -> Prop),
  Q tt (mkS L S (upd G g (mkG (g_state (G g)) (g_ref (G g)) czero)) V T) ->
  wp E (granule_memzero_mapped g) (mkS L S G V T) Q.
Proof. intros * HQ. apply wp_wr_mem. assumption. Qed.
Lemma wp_memzero : forall g x L S G V T (Q : _ -> state -> Prop), S x = false ->
  (forall S', (forall z, S' z = S z) -> Q tt (mkS L S' (upd G g (mkG (g_state (G g)) (g_ref (G g)) czero)) V T)) ->
  wp E (buffer_granule_memzero g x) (mkS L S G V T) Q.
Proof.
  intros * H HQ. unfold buffer_granule_memzero. apply wp_bind, wp_map_slot; [assumption|].
  apply wp_bind, wp_memzero_mapped, wp_unmap_slot; [apply upd_same|]. apply HQ.
  intro z. unfold upd. destruct (N.eqb_spec z x) as [->|]; congruence.
Qed.

Lemma wp_get_rd : forall g r L S G V T (Q : _ -> state -> Prop), as_rd (g_mem (G g)) = Some r ->
  Q r (mkS L S G V T) -> wp E (get_rd g) (mkS L S G V T) Q.
Proof. intros * H HQ. apply wp_bind, wp_rd_mem. rewrite H. apply wp_ret, HQ. Qed.
Lemma wp_get_rec : forall g r L S G V T (Q : _ -> state -> Prop), as_rec (g_mem (G g)) = Some r ->
  Q r (mkS L S G V T) -> wp E (get_rec g) (mkS L S G V T) Q.
Proof. intros * H HQ. apply wp_bind, wp_rd_mem. rewrite H. apply wp_ret, HQ. Qed.
Lemma wp_put_rd : forall g r L S G V T (Q : _ -> state -> Prop),
  Q tt (mkS L S (upd G g (mkG (g_state (G g)) (g_ref (G g)) (CRd r))) V T) -> wp E (put_rd g r) (mkS L S G V T) Q.
Proof. intros * HQ. exact HQ. Qed.
Lemma wp_put_rec : forall g r L S G V T (Q : _ -> state -> Prop),
  Q tt (mkS L S (upd G g (mkG (g_state (G g)) (g_ref (G g)) (CRec r))) V T) -> wp E (put_rec g r) (mkS L S G V T) Q.
Proof. intros * HQ. exact HQ. Qed.
Lemma wp_get_table : forall g f L S G V T (Q : _ -> state -> Prop), g_mem (G g) = CW f ->
  Q f (mkS L S G V T) -> wp E (get_table g) (mkS L S G V T) Q.
Proof. intros * H HQ. apply wp_bind, wp_rd_mem. rewrite H. apply wp_ret, HQ. Qed.
Lemma wp_ns_access : forall ok L S G V T (Q : _ -> state -> Prop), S SLOT_NS = false ->
  (forall S', (forall z, S' z = S z) -> Q ok (mkS L S' G V T)) -> wp E (ns_buffer_access ok) (mkS L S G V T) Q.
Proof.
  intros * H HQ. apply wp_bind, wp_map_slot; [assumption|]. apply wp_bind, wp_unmap_slot; [apply upd_same|].
  apply wp_ret, HQ. intro z. unfold upd. destruct (N.eqb_spec z SLOT_NS) as [->|]; congruence.
Qed.
Lemma wp_table_get_entry : forall g i f L S G V T (Q : _ -> state -> Prop), S SLOT_RTT = false -> g_mem (G g) = CW f ->
  (forall S', (forall z, S' z = S z) -> Q (f i) (mkS L S' G V T)) -> wp E (table_get_entry g i) (mkS L S G V T) Q.
Proof.
  intros * H Hm HQ. apply wp_bind, wp_map_slot; [assumption|]. apply wp_bind. eapply wp_rd_word; [eassumption|].
  apply wp_bind, wp_unmap_slot; [apply upd_same|].
  apply wp_ret, HQ. intro z. unfold upd. destruct (N.eqb_spec z SLOT_RTT) as [->|]; congruence.
Qed.
Lemma wp_s2tte_pa : forall x w level s (Q : _ -> state -> Prop),
  (min_starting_level (enable_lpa2 x) <= level <= 3)%Z -> s2tte_has_pa w level = true ->
  Q (s2tte_pa (enable_lpa2 x) w level) s -> wp E (s2tte_pa_ x w level) s Q.
Proof.
  intros * Hl Hp HQ. apply wp_bind, wp_assert; [|apply wp_ret, HQ].
  rewrite Hp. change S2TT_PAGE_LEVEL with 3%Z. lia.
Qed.
Lemma wp_addr_lvl_aligned : forall x a level s (Q : _ -> state -> Prop),
  (min_starting_level (enable_lpa2 x) <= level <= 3)%Z ->
  Q (s2tte_is_addr_lvl_aligned (enable_lpa2 x) a level) s -> wp E (addr_lvl_aligned_ x a level) s Q.
Proof.
  intros * Hl HQ. apply wp_bind, wp_assert; [|apply wp_ret, HQ]. change S2TT_PAGE_LEVEL with 3%Z. lia.
Qed.
End Rules.

(** Looking up a location in a chain of updates.  Disequalities are taken from
    the context; addresses of slots are numerals. *)
Ltac neq_tac :=
  first [ assumption | apply not_eq_sym; assumption | discriminate
        | (intro; subst; congruence) ].
Ltac updsimp :=
  repeat first
    [ rewrite upd_same
    | rewrite upd_other by neq_tac
    | match goal with
      | H : forall z, ?f z = upd _ _ _ z |- context [?f ?x] => rewrite (H x)
      | H : forall z, ?f z = ?g z |- context [?f ?x] => is_var f; is_var g; rewrite (H x)
      | H : forall z, ?f z = false |- context [?f ?x] => is_var f; rewrite (H x)
      end ];
  cbn [g_state g_ref g_mem].
(** Decide everything by cases on the address *)
Ltac updcase z :=
  unfold upd;
  repeat match goal with
  | |- context [z =? ?k] => destruct (N.eqb_spec z k); subst
  end.
