(** A discipline on programs: locks are released by their holder, granules are
    written under their lock, and everything is released at the end, whatever
    the reads deliver. *)
From Coq Require Import NArith ZArith List Bool Lia Permutation.
From Verif Require Import Bits S2tte State Granule RecFields Measure RmiGranule RmiRtt RmiRealm RmiRec Machine.
Import ListNotations.
Local Open Scope N_scope.

(** [x_free]: may release locks it does not hold; [x_put]: may drop a reference
    to an unlocked granule; [x_any]: may lock in any order *)
Record mode := mkMode { x_free : Prop; x_put : Prop; x_any : Prop }.

Definition order (M : mode) (H : list N) (g : N) : Prop := x_any M \/ forall h, In h H -> h < g.

Fixpoint disc (M : mode) {A} (H : list N) (p : prog A) (Q : A -> list N -> Prop) : Prop :=
  match p with
  | Ret a => exists L, Permutation H L /\ Q a L
  | Panic => True
  | Lock g k => order M H g /\ (~ In g H -> disc M (g :: H) k Q)
  | Unlock g k => (x_free M \/ In g H) /\ (forall H', Permutation H (g :: H') -> disc M H' k Q)
  | AssertLocked _ k | MapSlot _ k | UnmapSlot _ k | VmidClear _ k | Tlbi _ _ _ k => disc M H k Q
  | RdState _ k => forall v, disc M H (k v) Q
  | WrState g _ k => In g H /\ disc M H k Q
  | RdRef _ k => forall v, disc M H (k v) Q
  | AddRef g d k => (In g H \/ (x_put M /\ d = (-1)%Z)) /\ forall v, disc M H (k v) Q
  | RdMem _ k => forall v, disc M H (k v) Q
  | WrMem g _ k => In g H /\ disc M H k Q
  | RdWord _ _ k => forall v, disc M H (k v) Q
  | WrWord g _ _ k => In g H /\ disc M H k Q
  | VmidSet _ k => forall v, disc M H (k v) Q
  end.

Lemma order_perm : forall M H H' g, Permutation H H' -> order M H g -> order M H' g.
Proof. intros M H H' g P [O|O]; [left; exact O|right]. intros h I. apply O, (Permutation_in _ (Permutation_sym P) I). Qed.

Lemma disc_perm : forall M A (p : prog A) H H' Q, Permutation H H' -> disc M H p Q -> disc M H' p Q.
Proof.
  intros M A p. induction p; intros H0 H0' Q P D; cbn [disc] in *.
  - destruct D as (L & P1 & D). exists L. split; [|exact D]. eapply Permutation_trans; [apply Permutation_sym, P|exact P1].
  - exact D.
  - destruct D as (O & D). split; [apply (order_perm _ _ _ _ P O)|]. intros NI. apply IHp with (H := g :: H0).
    + apply perm_skip, P.
    + apply D. intros I. apply NI, (Permutation_in _ P I).
  - destruct D as (O & D). split.
    + destruct O as [O|O]; [left; exact O|right; apply (Permutation_in _ P O)].
    + intros H1 P1. apply (D H1). apply (Permutation_trans P P1).
  - eapply IHp; eauto.
  - eapply IHp; eauto.
  - eapply IHp; eauto.
  - intros v0. eapply H; eauto.
  - destruct D as (I & D). split; [apply (Permutation_in _ P I)|eapply IHp; eauto].
  - intros v0. eapply H; eauto.
  - destruct D as (I & D). split.
    + destruct I as [I|I]; [left; apply (Permutation_in _ P I)|right; exact I].
    + intros v0. eapply H; eauto.
  - intros v0. eapply H; eauto.
  - destruct D as (I & D). split; [apply (Permutation_in _ P I)|eapply IHp; eauto].
  - intros v0. eapply H; eauto.
  - destruct D as (I & D). split; [apply (Permutation_in _ P I)|eapply IHp; eauto].
  - intros v0. eapply H; eauto.
  - eapply IHp; eauto.
  - eapply IHp; eauto.
Qed.

Lemma disc_conseq : forall M A (p : prog A) H (Q Q' : A -> list N -> Prop),
  disc M H p Q -> (forall a L, Q a L -> Q' a L) -> disc M H p Q'.
Proof.
  intros M A p. induction p; intros H0 Q Q' D C; cbn [disc] in *;
    try (exact D); try (eapply IHp; eauto; fail); try (intros v0; eapply H; eauto; fail).
  - destruct D as (L & P1 & D). exists L. auto.
  - destruct D as (O & D). split; [exact O|]. intros NI. eapply IHp; eauto.
  - destruct D as (O & D). split; [exact O|]. intros H1 P1. eapply IHp; [apply (D H1 P1)|exact C].
  - destruct D as (I & D). split; [exact I|eapply IHp; eauto].
  - destruct D as (I & D). split; [exact I|]. intros v0. eapply H; eauto.
  - destruct D as (I & D). split; [exact I|eapply IHp; eauto].
  - destruct D as (I & D). split; [exact I|eapply IHp; eauto].
Qed.

Lemma disc_bind : forall M A B (p : prog A) (f : A -> prog B) H Q,
  disc M H p (fun a H' => disc M H' (f a) Q) -> disc M H (bind p f) Q.
Proof.
  intros M A B p f. induction p; intros H0 Q D; cbn [disc bind] in *;
    try (exact D); try (eapply IHp; eauto; fail); try (intros v0; eapply H; eauto; fail).
  - destruct D as (L & P1 & D). apply (disc_perm _ _ _ _ _ _ (Permutation_sym P1) D).
  - destruct D as (O & D). split; [exact O|]. intros NI. eapply IHp; eauto.
  - destruct D as (O & D). split; [exact O|]. intros H1 P1. eapply IHp, (D H1 P1).
  - destruct D as (I & D). split; [exact I|eapply IHp; eauto].
  - destruct D as (I & D). split; [exact I|]. intros v0. eapply H; eauto.
  - destruct D as (I & D). split; [exact I|eapply IHp; eauto].
  - destruct D as (I & D). split; [exact I|eapply IHp; eauto].
Qed.

Lemma disc_ret : forall M A (a : A) H (Q : A -> list N -> Prop), Q a H -> disc M H (Ret a) Q.
Proof. intros. cbn. exists H. split; [apply Permutation_refl|assumption]. Qed.

(** Programs that only read and assert *)
Fixpoint quiet {A} (p : prog A) : Prop :=
  match p with
  | Ret _ | Panic => True
  | AssertLocked _ k | MapSlot _ k | UnmapSlot _ k | Tlbi _ _ _ k | VmidClear _ k => quiet k
  | RdState _ k => forall v, quiet (k v)
  | RdRef _ k => forall v, quiet (k v)
  | RdMem _ k => forall v, quiet (k v)
  | RdWord _ _ k => forall v, quiet (k v)
  | VmidSet _ k => forall v, quiet (k v)
  | _ => False
  end.
Lemma quiet_bind : forall A B (p : prog A) (f : A -> prog B), quiet p -> (forall a, quiet (f a)) -> quiet (bind p f).
Proof. intros A B p f. induction p; cbn [quiet bind]; intros; auto; try contradiction. Qed.
Lemma quiet_disc : forall M A (p : prog A) H (Q : A -> list N -> Prop), quiet p -> (forall a, Q a H) -> disc M H p Q.
Proof.
  intros M A p. induction p; intros H0 Q D C; cbn [quiet disc] in *; auto; try contradiction.
  exists H0. split; [apply Permutation_refl|apply C].
Qed.

Lemma quiet_assert : forall b, quiet (assert_ b).
Proof. intros []; exact I. Qed.
Ltac quiets :=
  repeat first
    [ exact I | assumption
    | progress (cbv beta iota zeta)
    | apply quiet_assert
    | apply quiet_bind; [|intros ?]
    | match goal with
      | |- quiet (if ?b then _ else _) => destruct b
      | |- quiet (match ?b with _ => _ end) => destruct b
      | |- quiet (map_slot _) => exact I
      | |- quiet (Ret _) => exact I
      | |- quiet Panic => exact I
      | |- quiet (unmap_slot _) => exact I
      | |- quiet (rd_word _ _) => intros ?; exact I
      | |- quiet (rd_mem _) => intros ?; exact I
      | |- quiet (rd_state_ _) => intros ?; exact I
      | |- quiet (rd_ref _) => intros ?; exact I
      | |- quiet (vmid_set _) => intros ?; exact I
      | |- quiet (tlbi _ _ _) => exact I
      | |- quiet (vmid_clear _) => exact I
      | |- quiet (assert_locked _) => exact I
      end ].

Lemma q_addr_to_granule : forall c a, quiet (addr_to_granule c a).
Proof. intros. unfold addr_to_granule. quiets. Qed.
Lemma q_pa : forall x w l, quiet (s2tte_pa_ x w l).
Proof. intros. unfold s2tte_pa_. quiets. Qed.
Lemma q_aligned : forall x w l, quiet (addr_lvl_aligned_ x w l).
Proof. intros. unfold addr_lvl_aligned_. quiets. Qed.
Lemma q_entry : forall g i, quiet (table_get_entry g i).
Proof. intros. unfold table_get_entry. quiets. Qed.
Lemma q_get_rd : forall g, quiet (get_rd g).
Proof. intros. unfold get_rd. quiets. Qed.
Lemma q_get_rec : forall g, quiet (get_rec g).
Proof. intros. unfold get_rec. quiets. Qed.
Lemma q_get_table : forall g, quiet (get_table g).
Proof. intros. unfold get_table. quiets. Qed.
Lemma q_state : forall g, quiet (granule_get_state g).
Proof. intros. unfold granule_get_state. quiets. Qed.
Lemma q_inv : forall g s, quiet (assert_unlocked_invariants g s).
Proof. intros. unfold assert_unlocked_invariants. quiets. Qed.
Lemma q_ref_read : forall g, quiet (granule_refcount_read_acquire g).
Proof. intros. unfold granule_refcount_read_acquire. quiets. Qed.
Lemma q_map_addr : forall a l r, quiet (validate_map_addr a l r).
Proof. intros. unfold validate_map_addr. destruct (_ <? _); [apply q_aligned|exact I]. Qed.
Lemma q_structure : forall a l r, quiet (validate_rtt_structure_cmds a l r).
Proof. intros. unfold validate_rtt_structure_cmds. cbv zeta. destruct (_ || _); [exact I|apply q_map_addr]. Qed.
Lemma q_mapc : forall a l r, quiet (validate_rtt_map_cmds a l r).
Proof. intros. unfold validate_rtt_map_cmds. destruct (_ || _); [exact I|apply q_map_addr]. Qed.
Lemma q_entryc : forall a l r, quiet (validate_rtt_entry_cmds a l r).
Proof. intros. unfold validate_rtt_entry_cmds. destruct (_ || _); [exact I|apply q_map_addr]. Qed.
Lemma q_create_ns : forall x w l, quiet (s2tte_create_assigned_ns_ x w l).
Proof. intros. unfold s2tte_create_assigned_ns_. quiets. Qed.
Lemma q_maps_block : forall x t l f b, quiet (table_maps_block_ x t l f b).
Proof. intros. unfold table_maps_block_. quiets. Qed.
Lemma q_skip : forall x a t w, quiet (s2tt_skip_non_live_entries_ x a t w).
Proof. intros. unfold s2tt_skip_non_live_entries_. quiets. Qed.
Lemma q_read_entry : forall x w l, quiet (read_entry_result x w l).
Proof. intros. unfold read_entry_result. quiets; apply q_pa. Qed.
Lemma q_unknown : forall a r, quiet (validate_data_create_unknown a r).
Proof. intros. unfold validate_data_create_unknown. quiets. apply q_map_addr. Qed.
Lemma q_data : forall a r, quiet (validate_data_create a r).
Proof. intros. unfold validate_data_create. quiets. apply q_unknown. Qed.
Lemma q_update : forall x w l v ch, quiet (update_ripas x w l v ch).
Proof. intros. unfold update_ripas. quiets; apply q_pa. Qed.
Lemma q_inv_page : forall x a, quiet (s2tt_invalidate_page x a).
Proof. intros. unfold s2tt_invalidate_page. quiets. Qed.
Lemma q_inv_block : forall x a, quiet (s2tt_invalidate_block x a).
Proof. intros. unfold s2tt_invalidate_block. quiets. Qed.
Lemma q_inv_pages : forall x a, quiet (s2tt_invalidate_pages_in_block x a).
Proof. intros. unfold s2tt_invalidate_pages_in_block. quiets. Qed.
Lemma q_reserve : forall c v, quiet (vmid_reserve c v).
Proof. intros. unfold vmid_reserve. quiets. Qed.
Lemma q_vfree : forall c v, quiet (vmid_free c v).
Proof. intros. unfold vmid_free. quiets. Qed.
Lemma q_rparams : forall c p a, quiet (get_realm_params c p a).
Proof. intros. unfold get_realm_params. quiets. Qed.
Lemma q_vparams : forall c p, quiet (validate_realm_params c p).
Proof. intros. unfold validate_realm_params. destruct (realm_params_valid c p); [apply q_reserve|exact I]. Qed.
Lemma q_map_aux : forall l i, quiet (map_aux l i).
Proof. intros l. induction l; intros i; cbn [map_aux]; [exact I|]. apply quiet_bind; [exact I|intros _; apply IHl]. Qed.
Lemma q_unmap_aux : forall l i, quiet (unmap_aux l i).
Proof. intros l. induction l; intros i; cbn [unmap_aux]; [exact I|]. apply quiet_bind; [exact I|intros _; apply IHl]. Qed.
Lemma q_aux_init : forall l, quiet (rec_aux_granules_init l).
Proof.
  intros l. unfold rec_aux_granules_init. apply quiet_bind; [apply q_map_aux|intros _].
  apply quiet_bind; [apply quiet_assert|intros _; apply q_unmap_aux].
Qed.

Lemma in_mid : forall (H : list N) g, In g H -> exists H', Permutation H (g :: H').
Proof. intros H g I. destruct (in_split _ _ I) as (a & b & ->). exists (a ++ b). apply Permutation_sym, Permutation_middle. Qed.

Section Disc.
Variable M : mode.

(** ** Granules *)

Lemma d_lock_match : forall g st H (Q : bool -> list N -> Prop), order M H g -> Q false H -> (~ In g H -> Q true (g :: H)) ->
  disc M H (granule_lock_on_state_match g st) Q.
Proof.
  intros g st H Q O F T. unfold granule_lock_on_state_match. apply disc_bind. cbn [lock_ disc]. split; [exact O|intros NI].
  exists (g :: H). split; [apply Permutation_refl|]. apply disc_bind. apply quiet_disc; [apply q_state|]. intros v.
  destruct (negb _).
  - apply disc_bind. cbn [unlock_ disc]. split; [right; left; reflexivity|]. intros H' P.
    exists H'. split; [apply Permutation_refl|]. cbn [disc]. exists H. split; [|exact F].
    apply Permutation_cons_inv with g. apply Permutation_sym, P.
  - apply disc_bind. apply quiet_disc; [apply q_inv|]. intros _. apply disc_ret, T, NI.
Qed.

Lemma d_find_lock : forall c g st H (Q : bool -> list N -> Prop),
  (c_gran c g = true -> order M H g) -> Q false H -> (c_gran c g = true -> ~ In g H -> Q true (g :: H)) ->
  disc M H (find_lock_granule c g st) Q.
Proof.
  intros c g st H Q O F T. unfold find_lock_granule, find_granule. destruct (is_aligned_granule g); cbn [andb]; [|apply disc_ret, F].
  destruct (c_gran c g) eqn:E; [|apply disc_ret, F]. apply d_lock_match; auto.
Qed.

Lemma d_assert : forall b H (Q : unit -> list N -> Prop), (b = true -> Q tt H) -> disc M H (assert_ b) Q.
Proof. intros [] H Q K; cbn; [|exact I]. exists H. split; [apply Permutation_refl|auto]. Qed.

Lemma d_lock : forall g st H (Q : unit -> list N -> Prop), order M H g -> (~ In g H -> Q tt (g :: H)) ->
  disc M H (granule_lock g st) Q.
Proof.
  intros g st H Q O T. unfold granule_lock. apply disc_bind. apply d_lock_match; [exact O|exact I|].
  intros NI. apply d_assert. intros _. apply T, NI.
Qed.

Lemma d_unlock : forall g H H' (Q : unit -> list N -> Prop), Permutation H (g :: H') -> Q tt H' ->
  disc M H (granule_unlock g) Q.
Proof.
  intros g H H' Q P K. unfold granule_unlock. apply disc_bind, quiet_disc; [apply q_state|intros v].
  apply disc_bind, quiet_disc; [apply q_inv|intros _]. cbn [unlock_ disc].
  split; [right; apply (Permutation_in _ (Permutation_sym P)); left; reflexivity|].
  intros H1 P1. exists H'. split; [|exact K]. apply Permutation_cons_inv with g.
  eapply Permutation_trans; [apply Permutation_sym, P1|exact P].
Qed.

Lemma d_set_state : forall g st H (Q : unit -> list N -> Prop), In g H -> Q tt H -> disc M H (granule_set_state g st) Q.
Proof.
  intros g st H Q J K. unfold granule_set_state. apply disc_bind, quiet_disc; [exact I|intros _]. cbn.
  split; [exact J|]. exists H. split; [apply Permutation_refl|exact K].
Qed.
Lemma d_transition : forall g st H H' (Q : unit -> list N -> Prop), Permutation H (g :: H') -> Q tt H' ->
  disc M H (granule_unlock_transition g st) Q.
Proof.
  intros g st H H' Q P K. unfold granule_unlock_transition. apply disc_bind. apply d_set_state.
  - apply (Permutation_in _ (Permutation_sym P)). left. reflexivity.
  - apply d_unlock with H'; assumption.
Qed.
Lemma d_inc : forall g v H (Q : unit -> list N -> Prop), In g H -> Q tt H -> disc M H (granule_refcount_inc g v) Q.
Proof.
  intros g v H Q J K. unfold granule_refcount_inc. apply disc_bind, quiet_disc; [exact I|intros _]. apply disc_bind. cbn [add_ref disc].
  split; [left; exact J|]. intros old. exists H. split; [apply Permutation_refl|]. apply d_assert. intros _. exact K.
Qed.
Lemma d_dec : forall g v H (Q : unit -> list N -> Prop), In g H -> Q tt H -> disc M H (granule_refcount_dec g v) Q.
Proof.
  intros g v H Q J K. unfold granule_refcount_dec. apply disc_bind, quiet_disc; [exact I|intros _]. apply disc_bind. cbn [add_ref disc].
  split; [left; exact J|]. intros old. exists H. split; [apply Permutation_refl|]. apply d_assert. intros _. exact K.
Qed.
Lemma d_put_release : forall g H (Q : unit -> list N -> Prop), x_put M -> Q tt H -> disc M H (atomic_granule_put_release g) Q.
Proof.
  intros g H Q J K. unfold atomic_granule_put_release. apply disc_bind. cbn [add_ref disc].
  split; [right; split; [exact J|reflexivity]|]. intros old. exists H. split; [apply Permutation_refl|]. apply d_assert. intros _. exact K.
Qed.
Lemma d_wr_mem : forall g v H (Q : unit -> list N -> Prop), In g H -> Q tt H -> disc M H (wr_mem g v) Q.
Proof. intros g v H Q J K. cbn. split; [exact J|]. exists H. split; [apply Permutation_refl|exact K]. Qed.
Lemma d_wr_word : forall g i v H (Q : unit -> list N -> Prop), In g H -> Q tt H -> disc M H (wr_word g i v) Q.
Proof. intros g i v H Q J K. cbn. split; [exact J|]. exists H. split; [apply Permutation_refl|exact K]. Qed.
Lemma d_memzero : forall g s H (Q : unit -> list N -> Prop), In g H -> Q tt H -> disc M H (buffer_granule_memzero g s) Q.
Proof.
  intros g s H Q J K. unfold buffer_granule_memzero. apply disc_bind, quiet_disc; [exact I|intros _].
  apply disc_bind. apply d_wr_mem; [exact J|]. apply quiet_disc; [exact I|intros []; exact K].
Qed.

Lemma d_find_unused : forall c g st H (Q : find_unused -> list N -> Prop),
  (c_gran c g = true -> order M H g) -> Q FInval H -> Q FBusy H -> (~ In g H -> Q FOk (g :: H)) ->
  disc M H (find_lock_unused_granule c g st) Q.
Proof.
  intros c g st H Q O F B T. unfold find_lock_unused_granule. apply disc_bind. apply d_find_lock; [exact O|apply disc_ret, F|].
  intros _ NI. cbn [negb]. apply disc_bind, quiet_disc; [apply q_ref_read|intros v]. destruct (negb _).
  - apply disc_bind. apply d_unlock with H; [apply Permutation_refl|apply disc_ret, B].
  - apply disc_ret, T, NI.
Qed.

Lemma d_unlock_all : forall l H H' (Q : unit -> list N -> Prop), Permutation H (l ++ H') -> Q tt H' -> disc M H (unlock_all l) Q.
Proof.
  intros l. induction l as [|g l IH]; intros H H' Q P K; cbn [unlock_all].
  - cbn. exists H'. split; [exact P|exact K].
  - apply disc_bind. apply d_unlock with (l ++ H'); [exact P|]. apply IH with H'; [apply Permutation_refl|exact K].
Qed.

(** The two granules are locked in the order of their addresses *)
Lemma d_find_two : forall c a1 s1 a2 s2 (Q : bool -> list N -> Prop),
  Q false [] -> (a1 <> a2 -> Q true [a1; a2]) -> (forall L L' b, Permutation L L' -> Q b L -> Q b L') ->
  disc M [] (find_lock_two_granules c a1 s1 a2 s2) Q.
Proof.
  intros c a1 s1 a2 s2 Q F T PQ. unfold find_lock_two_granules, find_lock_granules.
  assert (X : forall a s b t, (a < b \/ a = b) -> (a <> b -> Q true [b; a]) -> disc M [] (find_lock_loop c [] [(a, s); (b, t)]) Q).
  { intros a s b t O K. cbn [find_lock_loop]. apply disc_bind. apply d_find_lock.
    - intros _. right. intros h [].
    - cbn [unlock_all]. apply disc_bind, disc_ret, disc_ret, F.
    - intros _ _. destruct (b =? a) eqn:E.
      + apply disc_bind. apply d_unlock_all with []; [apply Permutation_refl|]. apply disc_ret, F.
      + apply N.eqb_neq in E. apply disc_bind. apply d_find_lock.
        * intros _. right. intros h [<-|[]]. lia.
        * apply disc_bind. apply d_unlock_all with []; [apply Permutation_refl|]. apply disc_ret, F.
        * intros _ _. apply disc_ret, K. lia. }
  unfold sort_granules. cbn [fold_left insert_gs fst]. destruct (a2 <? a1) eqn:E.
  - apply N.ltb_lt in E. apply X; [left; exact E|]. intros NE. apply T. lia.
  - apply N.ltb_ge in E. apply X; [lia|]. intros NE. apply (PQ [a1; a2]); [apply perm_swap|]. apply T, NE.
Qed.

(** In a sequence *)
Lemma d_two : forall c a1 s1 a2 s2 A (f : bool -> prog A) Q,
  disc M [] (f false) Q -> (a1 <> a2 -> disc M [a1; a2] (f true) Q) ->
  disc M [] (b <- find_lock_two_granules c a1 s1 a2 s2 ;; f b) Q.
Proof.
  intros. apply disc_bind. apply d_find_two; [assumption|assumption|]. intros L L' b P D. apply (disc_perm _ _ _ _ _ _ P D).
Qed.

(** ** Tables *)

Lemma d_next_level : forall c x g a l H (Q : option N -> list N -> Prop), x_any M ->
  Q None H -> (forall g', ~ In g' H -> Q (Some g') (g' :: H)) -> disc M H (find_lock_next_level c x g a l) Q.
Proof.
  intros c x g a l H Q AN F T. unfold find_lock_next_level. apply disc_bind, quiet_disc; [apply q_entry|intros w].
  destruct (negb _); [apply disc_ret, F|]. apply disc_bind, quiet_disc; [apply q_addr_to_granule|intros g'].
  apply disc_bind. apply d_lock; [left; exact AN|]. intros NI. apply disc_ret, T, NI.
Qed.

Lemma d_walk_loop : forall c x a f g i H (Q : walk -> list N -> Prop), x_any M ->
  (forall wi, Q wi (w_llt wi :: H)) -> disc M (g :: H) (walk_loop f c x a g i) Q.
Proof.
  intros c x a f. induction f as [|f IH]; intros g i H Q AN K; cbn [walk_loop].
  - apply disc_ret. apply (K (mkWalk g (s2_addr_to_idx a i) i)).
  - apply disc_bind. apply d_next_level; [exact AN| |].
    + apply disc_ret. apply (K (mkWalk g (s2_addr_to_idx a i) i)).
    + intros g' NI. apply disc_bind. apply d_unlock with (g' :: H); [apply perm_swap|]. apply IH; assumption.
Qed.

Lemma d_walk : forall c x a l H (Q : walk -> list N -> Prop), x_any M ->
  (forall wi, Q wi (w_llt wi :: H)) -> disc M (g_rtt x :: H) (s2tt_walk_lock_unlock c x a l) Q.
Proof.
  intros c x a l H Q AN K. unfold s2tt_walk_lock_unlock. do 4 (apply disc_bind, d_assert; intros _). cbv zeta.
  apply disc_bind. destruct (_ <=? _).
  - apply disc_bind, d_assert. intros _. apply disc_bind. apply d_lock; [left; exact AN|]. intros NI.
    apply disc_bind. eapply d_unlock; [apply perm_swap|]. apply disc_ret. apply d_walk_loop; assumption.
  - apply disc_ret. apply d_walk_loop; assumption.
Qed.

End Disc.

(** ** Commands *)

(** Removing one element from a list written out *)
Lemma pm1 : forall (a : N) l, Permutation (a :: l) (a :: l).
Proof. intros. apply Permutation_refl. Qed.
Lemma pm2 : forall (a b : N) l, Permutation (b :: a :: l) (a :: b :: l).
Proof. intros. apply perm_swap. Qed.
Lemma pm3 : forall (a b d : N) l, Permutation (d :: b :: a :: l) (a :: d :: b :: l).
Proof. intros. eapply Permutation_trans; [apply perm_skip, perm_swap|]. apply perm_swap. Qed.
Lemma pm4 : forall (a b d e : N) l, Permutation (e :: d :: b :: a :: l) (a :: e :: d :: b :: l).
Proof. intros. eapply Permutation_trans; [apply perm_skip, pm3|]. apply perm_swap. Qed.

Ltac inl := cbn [In]; tauto.
Ltac perm1 := first [apply pm1 | apply pm2 | apply pm3 | apply pm4].
Ltac head_of p := lazymatch p with ?f _ => head_of f | ?f => f end.
Ltac quiet1 :=
  lazymatch goal with |- quiet ?p =>
  let h := head_of p in
  lazymatch h with
  | @addr_to_granule => apply q_addr_to_granule
  | @s2tte_pa_ => apply q_pa
  | @addr_lvl_aligned_ => apply q_aligned
  | @table_get_entry => apply q_entry
  | @get_rd => apply q_get_rd
  | @get_rec => apply q_get_rec
  | @get_table => apply q_get_table
  | @granule_get_state => apply q_state
  | @assert_unlocked_invariants => apply q_inv
  | @granule_refcount_read_acquire => apply q_ref_read
  | @validate_map_addr => apply q_map_addr
  | @validate_rtt_structure_cmds => apply q_structure
  | @validate_rtt_map_cmds => apply q_mapc
  | @validate_rtt_entry_cmds => apply q_entryc
  | @s2tte_create_assigned_ns_ => apply q_create_ns
  | @table_maps_block_ => apply q_maps_block
  | @s2tt_skip_non_live_entries_ => apply q_skip
  | @read_entry_result => apply q_read_entry
  | @validate_data_create_unknown => apply q_unknown
  | @validate_data_create => apply q_data
  | @update_ripas => apply q_update
  | @s2tt_invalidate_page => apply q_inv_page
  | @s2tt_invalidate_block => apply q_inv_block
  | @s2tt_invalidate_pages_in_block => apply q_inv_pages
  | @vmid_reserve => apply q_reserve
  | @vmid_free => apply q_vfree
  | @get_realm_params => apply q_rparams
  | @validate_realm_params => apply q_vparams
  | @map_aux => apply q_map_aux
  | @unmap_aux => apply q_unmap_aux
  | @rec_aux_granules_init => apply q_aux_init
  | @map_slot => exact I
  | @unmap_slot => exact I
  | @tlbi => exact I
  | @vmid_clear => exact I
  | @rd_word => intros ?; exact I
  | @rd_mem => intros ?; exact I
  | @rd_state_ => intros ?; exact I
  | @rd_ref => intros ?; exact I
  end end.

(** One construct of a command *)
Ltac dstep :=
  cbv beta iota zeta; cbn [negb andb orb fst snd];
  match goal with
  | |- disc _ _ (bind (find_lock_two_granules _ _ _ _ _) _) _ => apply d_two; [|intros ?]
  | |- disc _ _ (bind _ _) _ => apply disc_bind
  | |- disc _ _ (Ret _) _ => apply disc_ret
  | |- disc _ _ Panic _ => exact I
  | |- disc _ _ (assert_ _) _ => apply d_assert; let A := fresh "A" in (intros A; try discriminate A)
  | |- disc _ _ (if ?b then _ else _) _ => destruct b
  | |- disc _ _ (match ?b with _ => _ end) _ => destruct b
  | |- disc _ _ (find_lock_granule _ _ _) _ => apply d_find_lock; [intros ?; first [left; exact I | right; intros ? []]| |intros ? ?]
  | |- disc _ _ (find_lock_unused_granule _ _ _) _ => apply d_find_unused; [intros ?; first [left; exact I | right; intros ? []]| | |intros ?]
  | |- disc _ _ (granule_lock _ _) _ => apply d_lock; [first [left; exact I | right; intros ? []]|intros ?]
  | |- disc _ _ (granule_unlock _) _ => eapply d_unlock; [perm1|]
  | |- disc _ _ (granule_unlock_transition _ _) _ => eapply d_transition; [perm1|]
  | |- disc _ _ (granule_set_state _ _) _ => apply d_set_state; [inl|]
  | |- disc _ _ (granule_refcount_inc _ _) _ => apply d_inc; [inl|]
  | |- disc _ _ (granule_refcount_dec _ _) _ => apply d_dec; [inl|]
  | |- disc _ _ (atomic_granule_get _) _ => apply d_inc; [inl|]
  | |- disc _ _ (atomic_granule_put _) _ => apply d_dec; [inl|]
  | |- disc _ _ (wr_mem _ _) _ => apply d_wr_mem; [inl|]
  | |- disc _ _ (put_rd _ _) _ => apply d_wr_mem; [inl|]
  | |- disc _ _ (put_rec _ _) _ => apply d_wr_mem; [inl|]
  | |- disc _ _ (granule_memzero_mapped _) _ => apply d_wr_mem; [inl|]
  | |- disc _ _ (wr_word _ _ _) _ => apply d_wr_word; [inl|]
  | |- disc _ _ (buffer_granule_memzero _ _) _ => apply d_memzero; [inl|]
  | |- disc _ _ (s2tt_walk_lock_unlock _ _ _ _) _ => apply d_walk; [exact I|intros ?]
  | |- disc _ _ (s2tt_init_assigned_ _ _ _ _ _) _ => unfold s2tt_init_assigned_
  | |- disc _ _ (s2tt_init_assigned_ns_ _ _ _ _ _) _ => unfold s2tt_init_assigned_ns_
  | |- disc _ _ _ _ => apply quiet_disc; [quiet1|intros ?]
  end.
Ltac dsteps := repeat dstep; try reflexivity.

Definition done_ {A} : A -> list N -> Prop := fun _ H => H = [].
(** Table commands, named commands *)
Definition Mt := mkMode False False True.
Definition Mn := mkMode False False False.
Definition Mp := mkMode False True True.
Definition Mr := mkMode True False False.

Lemma c_delegate : forall c b a, disc Mn [] (smc_granule_delegate c b a) done_.
Proof. intros. unfold smc_granule_delegate. dsteps. Qed.
Lemma c_undelegate : forall c b a, disc Mn [] (smc_granule_undelegate c b a) done_.
Proof. intros. unfold smc_granule_undelegate. dsteps. Qed.
Lemma c_activate : forall c a, disc Mn [] (smc_realm_activate c a) done_.
Proof. intros. unfold smc_realm_activate. dsteps. Qed.
Lemma c_aux_count : forall c a, disc Mn [] (smc_rec_aux_count c a) done_.
Proof. intros. unfold smc_rec_aux_count. dsteps. Qed.
Lemma c_psci : forall c a b s, disc Mn [] (smc_psci_complete c a b s) done_.
Proof. intros. unfold smc_psci_complete. dsteps. Qed.
Lemma c_rtt_create : forall c a b d e, disc Mt [] (smc_rtt_create c a b d e) done_.
Proof. intros. unfold smc_rtt_create. dsteps. Qed.
Lemma c_read_entry : forall c a b d, disc Mt [] (smc_rtt_read_entry c a b d) done_.
Proof. intros. unfold smc_rtt_read_entry. dsteps. Qed.
Lemma c_rtt_destroy : forall c a b d, disc Mt [] (smc_rtt_destroy c a b d) done_.
Proof. intros. unfold smc_rtt_destroy. dsteps. Qed.

Lemma d_fold_parent : forall x llt g t l ll H (Q : N + N -> list N -> Prop), In llt H -> In g H -> (forall r, Q r H) ->
  disc Mt H (fold_parent_s2tte x llt g t l ll) Q.
Proof.
  intros x llt g t l ll H Q I1 I2 K. unfold fold_parent_s2tte.
  repeat first [ match goal with |- disc _ _ (atomic_granule_put _) _ => apply d_dec; [assumption|]
               | |- disc _ _ (granule_refcount_dec _ _) _ => apply d_dec; [assumption|] end | dstep ]; apply K.
Qed.
Lemma c_fold : forall c a b d, disc Mt [] (smc_rtt_fold c a b d) done_.
Proof.
  intros. unfold smc_rtt_fold.
  repeat first [ match goal with |- disc _ _ (fold_parent_s2tte _ _ _ _ _ _) _ => apply d_fold_parent; [inl|inl|intros ?] end | dstep ];
  reflexivity.
Qed.
Lemma d_map_unmap : forall c a b l h, disc Mt [] (map_unmap_ns c a b l h) done_.
Proof. intros. unfold map_unmap_ns. dsteps. Qed.
Lemma c_map : forall c a b l h, disc Mt [] (smc_rtt_map_unprotected c a b l h) done_.
Proof.
  intros. unfold smc_rtt_map_unprotected. cbv zeta. destruct (_ || _); [apply disc_ret; reflexivity|].
  apply disc_bind. eapply disc_conseq; [apply d_map_unmap|]. intros r L E. apply disc_ret, E.
Qed.
Lemma c_unmap : forall c a b l, disc Mt [] (smc_rtt_unmap_unprotected c a b l) done_.
Proof.
  intros. unfold smc_rtt_unmap_unprotected. cbv zeta. destruct (_ || _); [apply disc_ret; reflexivity|]. apply d_map_unmap.
Qed.
Lemma d_data_create : forall c a b l s, disc Mt [] (data_create c a b l s) done_.
Proof. intros. unfold data_create. dsteps. Qed.
Lemma c_data_create : forall c d a b l s f, disc Mt [] (smc_data_create c d a b l s f) done_.
Proof.
  intros. unfold smc_data_create. destruct (_ && _); [apply disc_ret; reflexivity|].
  destruct (negb _); [apply disc_ret; reflexivity|]. apply disc_bind, quiet_disc; [intros ?; exact I|intros st].
  destruct (negb _); [apply disc_ret; reflexivity|]. apply d_data_create.
Qed.
Lemma c_data_destroy : forall c a b, disc Mt [] (smc_data_destroy c a b) done_.
Proof. intros. unfold smc_data_destroy. dsteps. Qed.

Lemma d_init_loop : forall c llt alg top sz f i a r H (Q : N * N -> list N -> Prop), In llt H -> (forall o, Q o H) ->
  disc Mt H (init_ripas_loop f c llt alg top sz i a r) Q.
Proof.
  intros c llt alg top sz f. induction f as [|f IH]; intros i a r H Q I1 K; cbn [init_ripas_loop]; [apply disc_ret, K|].
  cbv zeta. destruct (_ <? _); [apply disc_ret, K|]. apply disc_bind, quiet_disc; [intros ?; exact I|intros w].
  destruct (s2tte_is_unassigned_empty w).
  - apply disc_bind. apply d_wr_word; [exact I1|]. apply IH; assumption.
  - destruct (negb _); [apply disc_ret, K|apply IH; assumption].
Qed.
Lemma c_init_ripas : forall c a b d, disc Mt [] (smc_rtt_init_ripas c a b d) done_.
Proof.
  intros. unfold smc_rtt_init_ripas.
  repeat first [ match goal with |- disc _ _ (init_ripas_loop _ _ _ _ _ _ _ _ _) _ => apply d_init_loop; [inl|intros ?] end | dstep ];
  reflexivity.
Qed.

Lemma d_set_loop : forall x llt l top v ch f i a H (Q : N -> list N -> Prop), In llt H -> (forall o, Q o H) ->
  disc Mt H (set_ripas_loop f x llt l top v ch i a) Q.
Proof.
  intros x llt l top v ch f. induction f as [|f IH]; intros i a H Q I1 K; cbn [set_ripas_loop]; [apply disc_ret, K|].
  cbv zeta. destruct (_ <? _); [apply disc_ret, K|]. apply disc_bind, quiet_disc; [intros ?; exact I|intros w].
  apply disc_bind, quiet_disc; [apply q_update|intros u]. destruct u; [apply disc_ret, K|apply IH; assumption|].
  apply disc_bind. apply d_wr_word; [exact I1|]. apply disc_bind.
  destruct need_tlbi; [destruct (_ =? _)%Z|]; (apply quiet_disc; [first [exact I | quiet1]|intros _; apply IH; assumption]).
Qed.
Lemma d_set_range : forall x b t wi v ch H (Q : res -> list N -> Prop), In (w_llt wi) H -> (forall o, Q o H) ->
  disc Mt H (rtt_set_ripas_range x b t wi v ch) Q.
Proof.
  intros x b t wi v ch H Q I1 K. unfold rtt_set_ripas_range. cbv zeta. destruct (negb _); [apply disc_ret, K|].
  apply disc_bind. apply d_set_loop; [exact I1|intros o]. destruct (_ <? _); apply disc_ret, K.
Qed.
Lemma c_set_ripas : forall c a r b t, disc Mt [] (smc_rtt_set_ripas c a r b t) done_.
Proof.
  intros. unfold smc_rtt_set_ripas.
  repeat first [ match goal with |- disc _ _ (rtt_set_ripas_range _ _ _ _ _ _) _ => apply d_set_range; [inl|intros ?] end | dstep ];
  reflexivity.
Qed.

(** Realms *)
Lemma d_free_sl : forall l H (Q : unit -> list N -> Prop), Q tt H -> disc Mt H (free_sl_rtts l) Q.
Proof.
  intros l. induction l as [|g l IH]; intros H Q K; cbn [free_sl_rtts]; [apply disc_ret, K|].
  repeat dstep. apply IH, K.
Qed.
Lemma d_total : forall l a H (Q : N -> list N -> Prop), (forall n, Q n H) -> disc Mt H (total_root_rtt_refcount l a) Q.
Proof.
  intros l. induction l as [|g l IH]; intros a H Q K; cbn [total_root_rtt_refcount]; [apply disc_ret, K|].
  repeat dstep. apply IH, K.
Qed.
Lemma c_realm_destroy : forall c a, disc Mt [] (smc_realm_destroy c a) done_.
Proof.
  intros. unfold smc_realm_destroy.
  repeat first [ match goal with |- disc _ _ (free_sl_rtts _) _ => apply d_free_sl
    | |- disc _ _ (total_root_rtt_refcount _ _) _ => apply d_total; intros ? end | dstep ]; reflexivity.
Qed.

Lemma root_list_S : forall b n, root_list b (N.of_nat (S n)) = root_list b (N.of_nat n) ++ [b + N.of_nat n * GRANULE_SIZE].
Proof. intros. unfold root_list. rewrite !Nnat.Nat2N.id, seq_S, map_app. reflexivity. Qed.
(** The tables from the [i]th on *)
Lemma d_lock_roots : forall M c b n i L (Q : bool * list N -> list N -> Prop) H,
  (forall h, In h (L ++ H) -> h < b + N.of_nat i * GRANULE_SIZE) ->
  (forall k L', (k <= i + n)%nat -> Permutation (L' ++ H) (map (fun j => b + N.of_nat j * GRANULE_SIZE) (seq i (k - i)) ++ L ++ H) ->
     (i <= k)%nat -> (k < i + n)%nat -> Q (false, L') (L' ++ H)) ->
  (forall L', Permutation L' (map (fun j => b + N.of_nat j * GRANULE_SIZE) (seq i n) ++ L) ->
     (forall j, (i <= j < i + n)%nat -> c_gran c (b + N.of_nat j * GRANULE_SIZE) = true) -> Q (true, L') (L' ++ H)) ->
  disc M (L ++ H) (lock_roots c (map (fun j => b + N.of_nat j * GRANULE_SIZE) (seq i n)) L) Q.
Proof.
  intros M c b n. induction n as [|n IH]; intros i L Q H O F T.
  - cbn [seq map lock_roots]. apply disc_ret, T; [apply Permutation_refl|]. intros j J. lia.
  - cbn [seq map lock_roots]. apply disc_bind. apply d_find_lock.
    + intros _. right. exact O.
    + apply disc_ret. apply (F i L); [lia| |lia|lia]. rewrite Nat.sub_diag. apply Permutation_refl.
    + intros GR NI. rewrite app_comm_cons. apply IH.
      * intros h [<-|I]; [change GRANULE_SIZE with 4096; lia|]. specialize (O h I). change GRANULE_SIZE with 4096 in *. lia.
      * intros k L' K1 P K2 K3. apply (F k L'); [lia| |lia|lia].
        eapply Permutation_trans; [exact P|]. replace (k - i)%nat with (S (k - S i))%nat by lia. cbn [seq map].
        rewrite <- app_comm_cons. apply Permutation_sym. cbn [app]. apply Permutation_middle.
      * intros L' P G. apply T.
        -- eapply Permutation_trans; [exact P|]. cbn [seq map app]. apply Permutation_sym, Permutation_middle.
        -- intros j J. destruct (Nat.eq_dec j i) as [->|NE]; [exact GR|apply G; lia].
Qed.

Lemma d_find_rd : forall c rd b n (Q : bool -> list N -> Prop),
  ((forall j, (j < N.to_nat n)%nat -> c_gran c (b + N.of_nat j * GRANULE_SIZE) = true) -> b <= rd ->
     forall j, (j < N.to_nat n)%nat -> b + N.of_nat j * GRANULE_SIZE < rd) ->
  Q false [] -> (forall L, Permutation L (rd :: root_list b n) -> Q true L) ->
  disc Mn [] (find_lock_rd_granules c rd b n) Q.
Proof.
  intros c rd b n Q O F T. unfold find_lock_rd_granules, root_list in *. cbv zeta. apply disc_bind.
  destruct (rd <? b) eqn:E; [apply N.ltb_lt in E|apply N.ltb_ge in E].
  - apply d_find_lock; [intros _; right; intros ? []|apply disc_ret, F|]. intros _ _. cbn [negb]. apply disc_bind.
    apply (d_lock_roots Mn c b (N.to_nat n) 0%nat [] _ [rd]).
    + intros h [<-|[]]. lia.
    + intros k L' _ _ _ _. cbn [fst snd]. apply disc_bind, disc_ret. apply disc_bind.
      apply d_unlock_all with [rd]; [apply Permutation_refl|]. apply disc_bind.
      apply d_unlock with []; [apply Permutation_refl|]. apply disc_ret, F.
    + intros L' P _. cbn [fst snd]. apply disc_bind, disc_ret, disc_ret, T. rewrite app_nil_r in P.
      apply Permutation_sym. apply Permutation_cons_app. rewrite app_nil_r. apply Permutation_sym, P.
  - apply disc_ret. cbn [negb]. apply disc_bind.
    apply (d_lock_roots Mn c b (N.to_nat n) 0%nat [] _ []).
    + intros h [].
    + intros k L' _ _ _ _. cbn [fst snd]. apply disc_bind, disc_ret. apply disc_bind.
      apply d_unlock_all with []; [apply Permutation_refl|]. apply disc_bind, disc_ret, disc_ret, F.
    + intros L' P G. cbn [fst snd]. rewrite app_nil_r in *. apply disc_bind. apply d_find_lock.
      * intros _. right. intros h I. apply (Permutation_in _ P) in I. apply in_map_iff in I.
        destruct I as (j & <- & I). apply in_seq in I. apply O; [intros k K; apply G; lia|exact E|lia].
      * apply disc_bind. apply d_unlock_all with []; [rewrite app_nil_r; apply Permutation_refl|]. apply disc_bind, disc_ret, disc_ret, F.
      * intros _ _. apply disc_ret, T, perm_skip, P.
Qed.

Lemma d_init_roots : forall per par size step n g cur H (Q : unit -> list N -> Prop),
  (forall j, (j < n)%nat -> In (g + N.of_nat j * GRANULE_SIZE) H) -> Q tt H ->
  disc Mn H (init_roots n per par size step g cur) Q.
Proof.
  intros per par size step n. induction n as [|n IH]; intros g cur H Q J K; cbn [init_roots]; [exact I|].
  apply disc_bind, quiet_disc; [exact I|intros _]. apply disc_bind, quiet_disc; [apply q_get_table|intros t]. cbv zeta.
  apply disc_bind. apply d_wr_mem.
  - specialize (J 0%nat ltac:(lia)). rewrite N.add_0_r in J. exact J.
  - apply disc_bind, quiet_disc; [exact I|intros _]. destruct (snd _); [apply disc_ret, K|]. apply IH; [|exact K].
    intros j L. specialize (J (S j) ltac:(lia)). replace (g + GRANULE_SIZE + N.of_nat j * GRANULE_SIZE) with (g + N.of_nat (S j) * GRANULE_SIZE); [exact J|].
    change GRANULE_SIZE with 4096. lia.
Qed.

Lemma d_transition_all : forall st l H H' (Q : unit -> list N -> Prop), Permutation H (l ++ H') -> Q tt H' ->
  disc Mn H (transition_all l st) Q.
Proof.
  intros st l. induction l as [|g l IH]; intros H H' Q P K; cbn [transition_all].
  - exists H'. split; [exact P|exact K].
  - apply disc_bind. apply d_transition with (l ++ H'); [exact P|]. apply IH with H'; [apply Permutation_refl|exact K].
Qed.

Lemma roots_in : forall b n j, (j < N.to_nat n)%nat -> In (b + N.of_nat j * GRANULE_SIZE) (root_list b n).
Proof. intros b n j J. unfold root_list. apply in_map_iff. exists j. split; [reflexivity|]. apply in_seq. lia. Qed.

Lemma not_contained : forall c b n rd j, (forall a, c_gran c a = true -> a < 2 ^ 52) ->
  addr_is_contained b (wrap64 (b + n * GRANULE_SIZE)) rd = false ->
  (forall j, (j < N.to_nat n)%nat -> c_gran c (b + N.of_nat j * GRANULE_SIZE) = true) -> b <= rd ->
  (j < N.to_nat n)%nat -> b + N.of_nat j * GRANULE_SIZE < rd.
Proof.
  intros c b n rd j C A G B J. unfold addr_is_contained in A. cbv zeta in A.
  assert (X : b + N.of_nat (N.to_nat n - 1) * GRANULE_SIZE < 2 ^ 52) by (apply C, G; lia).
  change GRANULE_SIZE with 4096 in *. change (2 ^ 52) with 4503599627370496 in X.
  assert (n1 : N.of_nat (N.to_nat n - 1) = n - 1) by lia. rewrite n1 in X. assert (N0 : 1 <= n) by lia.
  assert (W : wrap64 (b + n * 4096) = b + n * 4096).
  { unfold wrap64. apply N.mod_small. clear - X N0. lia. }
  rewrite W in A.
  assert (W2 : wrap64 (b + n * 4096 + 2 ^ 64 - 1) = b + n * 4096 - 1).
  { unfold wrap64. replace (b + n * 4096 + 2 ^ 64 - 1) with (b + n * 4096 - 1 + 1 * 2 ^ 64) by (clear - N0; lia).
    rewrite N.mod_add by discriminate. apply N.mod_small. clear - X N0. lia. }
  rewrite W2 in A. destruct (b + n * 4096 - 1 <? b) eqn:E; [apply N.ltb_lt in E; clear - E N0; lia|].
  apply andb_false_iff in A. destruct A as [A|A]; apply N.leb_gt in A; clear - A B J; lia.
Qed.

Lemma c_realm_create : forall c p rd pa, (forall a, c_gran c a = true -> a < 2 ^ 52) ->
  disc Mn [] (smc_realm_create c p rd pa) done_.
Proof.
  intros c p rd pa C. unfold smc_realm_create. apply disc_bind, quiet_disc; [apply q_rparams|intros op].
  destruct op as [q|]; [|apply disc_ret; reflexivity]. apply disc_bind, quiet_disc; [apply q_vparams|intros b].
  destruct b; cbn [negb]; [|apply disc_ret; reflexivity].
  destruct (addr_is_contained _ _ _) eqn:AC; [apply disc_bind, quiet_disc; [apply q_vfree|intros _; apply disc_ret; reflexivity]|].
  apply disc_bind. apply d_find_rd.
  - intros G B j J. apply (not_contained c _ _ _ j C AC G B J).
  - cbn [negb]. apply disc_bind, quiet_disc; [apply q_vfree|intros _; apply disc_ret; reflexivity].
  - intros L P. cbn [negb]. apply (disc_perm _ _ _ (rd :: root_list (p_rtt_base q) (p_rtt_num_start q))); [apply Permutation_sym, P|].
    repeat first [ match goal with
      | |- disc _ _ (init_s2_starting_level _) _ =>
          apply d_init_roots; [intros j J; right; apply roots_in, J|]
      | |- disc _ _ (transition_all _ _) _ => apply d_transition_all with []; [rewrite app_nil_r; apply Permutation_refl|]
      end | dstep ]; reflexivity.
Qed.

(** RECs *)
Lemma d_free_aux : forall M s l i H (Q : unit -> list N -> Prop), (forall g, order M H g) -> Q tt H ->
  disc M H (free_rec_aux_granules l i s) Q.
Proof.
  intros M s l. induction l as [|g l IH]; intros i H Q O K; cbn [free_rec_aux_granules]; [apply disc_ret, K|].
  apply disc_bind. apply d_lock; [apply O|intros NI]. apply disc_bind.
  assert (X : disc M (g :: H) (granule_unlock_transition g DELEGATED;;; free_rec_aux_granules l (i + 1) s) Q).
  { apply disc_bind. apply d_transition with H; [apply Permutation_refl|]. apply IH; assumption. }
  destruct s; [apply d_memzero; [left; reflexivity|exact X]|apply disc_ret, X].
Qed.
Lemma d_free_unlock_all : forall M l A (k : unit -> prog A) H Q, x_free M -> disc M H (k tt) Q ->
  (forall g, In g l -> ~ In g H) -> disc M H (bind (unlock_all l) k) Q.
Proof.
  intros M l A k H Q X D NI. destruct l as [|g l]; cbn [unlock_all]; [exact D|].
  apply disc_bind, disc_bind. unfold granule_unlock. apply disc_bind, quiet_disc; [apply q_state|intros v].
  apply disc_bind, quiet_disc; [apply q_inv|intros _]. cbn [unlock_ disc]. split; [left; exact X|].
  intros H' P. exfalso. apply (NI g (or_introl eq_refl)). apply (Permutation_in _ (Permutation_sym P)). left. reflexivity.
Qed.
Lemma d_acquire : forall c l d (Q : bool -> list N -> Prop), Q true [] -> Q false [] -> disc Mr [] (acquire_aux c l d) Q.
Proof.
  intros c l. induction l as [|a l IH]; intros d Q T F; cbn [acquire_aux]; [apply disc_ret, T|].
  apply disc_bind. apply d_find_lock; [intros _; right; intros ? []| |].
  - cbn [negb]. apply d_free_unlock_all; [exact I| |].
    + apply disc_bind. apply d_free_aux; [intros g; right; intros ? []|apply disc_ret, F].
    + intros g _ [].
  - intros _ _. cbn [negb]. apply disc_bind. apply d_transition with []; [apply Permutation_refl|]. apply IH; assumption.
Qed.
Lemma d_rec_locked : forall M c rd rec p aux H (Q : N * gstate -> list N -> Prop), In rd H -> In rec H -> (forall o, Q o H) ->
  disc M H (rec_create_locked c rd rec p aux) Q.
Proof.
  intros M c rd rec p aux H Q I1 I2 K. unfold rec_create_locked.
  repeat first [ match goal with
    | |- disc _ _ (put_rd _ _) _ => apply d_wr_mem; [assumption|]
    | |- disc _ _ (put_rec _ _) _ => apply d_wr_mem; [assumption|]
    | |- disc _ _ (atomic_granule_get _) _ => apply d_inc; [assumption|]
    end | dstep ]; apply K.
Qed.
Lemma c_rec_create : forall c p rd rec pa, disc Mr [] (smc_rec_create c p rd rec pa) done_.
Proof.
  intros c p rd rec pa. unfold smc_rec_create.
  repeat first [ match goal with
    | |- disc _ _ (acquire_aux _ _ _) _ => apply d_acquire
    | |- disc _ _ (rec_create_locked _ _ _ _ _) _ => apply d_rec_locked; [inl|inl|intros ?]
    | |- disc _ _ (free_rec_aux_granules _ _ _) _ => apply d_free_aux; [intros g; right; intros ? []|]
    end | dstep ]; reflexivity.
Qed.
Lemma c_rec_destroy : forall c rec, disc Mp [] (smc_rec_destroy c rec) done_.
Proof.
  intros c rec. unfold smc_rec_destroy.
  repeat first [ match goal with
    | |- disc _ _ (free_rec_aux_granules _ _ _) _ => apply d_free_aux; [intros g; left; exact I|]
    | |- disc _ _ (atomic_granule_put_release _) _ => apply d_put_release; [exact I|]
    end | dstep ]; reflexivity.
Qed.
