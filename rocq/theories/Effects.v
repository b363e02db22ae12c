(** The elementary effects of commands on the state, as labels; every effect
    preserves the invariant. *)
From Coq Require Import NArith ZArith List Bool Lia ZifyBool ZifyN.
From Verif Require Import Bits S2tte S2tteFacts State Granule Wp RecFields Measure RmiRtt RmiRealm Psci RmiRec
  Inv InvTree InvStep InvStep2 InvStep3.
Import ListNotations.
Local Open Scope N_scope.

(** Entry number [j] of a table of level [l] that replaces the entry [e] one
    level up *)
Definition unfold_e (l : Z) (e : entry) (j : N) : entry :=
  match e with
  | EAsEmpty pa => EAsEmpty (pa + j * ms l)
  | EAsRam pa => EAsRam (pa + j * ms l)
  | EAsDestr pa => EAsDestr (pa + j * ms l)
  | EAsNs at_ pa => EAsNs at_ (pa + j * ms l)
  | _ => e
  end.

(** Conditions under which data of a running system changes without a
    command *)
Inductive label :=
| LEntry (rd : N) (l : Z) (n : N) (e e' : entry)
| LAssign (rd n : N) (e e' : entry) (pa : N) (f : N -> N)
| LRelease (rd n : N) (e e' : entry) (pa : N)
| LAttach (rd : N) (l : Z) (n : N) (e : entry) (b : N)
| LFold (rd : N) (l : Z) (n : N) (e' : entry) (b : N)
| LDestroy (rd : N) (l : Z) (n : N) (e' : entry) (b : N)
| LRd (rd : N) (d d' : rdesc)
| LRec (r : N) (rc rc' : recd) (n : N)
| LFree (z : N) (g' : granule)
| LRecCreate (rd r : N) (d d' : rdesc) (rc : recd)
| LRecDestroy (rd r : N) (rc : recd)
| LRealmCreate (rd : N) (d : rdesc)
| LRealmDestroy (rd : N) (d : rdesc).

(** The word a root table holds for an address that is not mapped *)
Definition root_entry (x : s2ctx) (n : N) : entry :=
  if n <? parn x (s2_sl x) then EUnEmpty else if n <? ipan x (s2_sl x) then EUnNs else EUnEmpty.

Inductive geff (c : cfg) (gh : ghost) (G : N -> granule) (V : N -> bool) :
  label -> ghost -> (N -> granule) -> (N -> bool) -> Prop :=
| g_entry : forall rd l t i a d e' f' G',
    own gh a = Some (rd, l, t) -> is_rd G rd d -> i < 512 ->
    is_table_e (ent gh a i) = false -> is_table_e e' = false -> asg (ent gh a i) = asg e' ->
    entry_ok gh (rd_ctx d) rd l (512 * t + i) e' ->
    words_ok (enable_lpa2 (rd_ctx d)) l f' (upd (ent gh a) i e') ->
    G' a = mkG RTT (g_ref (G a)) (CW f') -> (forall z, z <> a -> G' z = G z) ->
    geff c gh G V (LEntry rd l (512 * t + i) (ent gh a i) e') (set_ent gh a (upd (ent gh a) i e')) G' V
| g_assign : forall rd t i a d e' f' pa fd G',
    own gh a = Some (rd, 3%Z, t) -> is_rd G rd d -> i < 512 ->
    asg (ent gh a i) = None -> is_table_e (ent gh a i) = false -> asg e' = Some pa ->
    valid_entry (enable_lpa2 (rd_ctx d)) 3 e' -> 512 * t + i < parn (rd_ctx d) 3 -> g_state (G pa) = DELEGATED ->
    words_ok (enable_lpa2 (rd_ctx d)) 3 f' (upd (ent gh a) i e') ->
    G' a = mkG RTT (g_ref (G a) + 1) (CW f') -> G' pa = mkG DATA 0 (CW fd) ->
    (forall z, z <> a -> z <> pa -> G' z = G z) ->
    geff c gh G V (LAssign rd (512 * t + i) (ent gh a i) e' pa fd)
      (set_dmap (set_ent gh a (upd (ent gh a) i e')) pa (Some (rd, 512 * t + i))) G' V
| g_release : forall rd t i a d e' f' pa G',
    own gh a = Some (rd, 3%Z, t) -> is_rd G rd d -> i < 512 ->
    asg (ent gh a i) = Some pa -> asg e' = None -> is_table_e e' = false ->
    entry_ok gh (rd_ctx d) rd 3 (512 * t + i) e' ->
    words_ok (enable_lpa2 (rd_ctx d)) 3 f' (upd (ent gh a) i e') ->
    G' a = mkG RTT (g_ref (G a) - 1) (CW f') -> G' pa = mkG DELEGATED 0 czero ->
    (forall z, z <> a -> z <> pa -> G' z = G z) ->
    geff c gh G V (LRelease rd (512 * t + i) (ent gh a i) e' pa)
      (set_dmap (set_ent gh a (upd (ent gh a) i e')) pa None) G' V
| g_attach : forall rd l t i a d b f' fb G',
    own gh a = Some (rd, l, t) -> is_rd G rd d -> i < 512 -> (l < 3)%Z ->
    512 * t + i < ipan (rd_ctx d) l -> g_state (G b) = DELEGATED -> pa_ok (enable_lpa2 (rd_ctx d)) 3 b ->
    is_table_e (ent gh a i) = false ->
    (asg (ent gh a i) <> None -> (1 <= l)%Z) ->
    words_ok (enable_lpa2 (rd_ctx d)) l f' (upd (ent gh a) i (ETable b)) ->
    words_ok (enable_lpa2 (rd_ctx d)) (l + 1) fb (unfold_e (l + 1) (ent gh a i)) ->
    G' a = mkG RTT (g_ref (G a) + 1 - N.b2n (counted (ent gh a i))) (CW f') ->
    G' b = mkG RTT (if counted (ent gh a i) then 512 else 0) (CW fb) ->
    (forall z, z <> a -> z <> b -> G' z = G z) ->
    geff c gh G V (LAttach rd l (512 * t + i) (ent gh a i) b)
      (set_own (set_ent (set_ent gh a (upd (ent gh a) i (ETable b))) b (unfold_e (l + 1) (ent gh a i))) b
               (Some (rd, (l + 1)%Z, 512 * t + i))) G' V
| g_fold : forall rd l t i a d b e' f' G',
    own gh a = Some (rd, l, t) -> is_rd G rd d -> i < 512 -> ent gh a i = ETable b ->
    is_table_e e' = false -> valid_entry (enable_lpa2 (rd_ctx d)) l e' ->
    (forall j, j < 512 -> ent gh b j = unfold_e (l + 1) e' j) ->
    words_ok (enable_lpa2 (rd_ctx d)) l f' (upd (ent gh a) i e') ->
    G' a = mkG RTT (g_ref (G a) - 1 + N.b2n (counted e')) (CW f') ->
    G' b = mkG DELEGATED 0 czero -> (forall z, z <> a -> z <> b -> G' z = G z) ->
    geff c gh G V (LFold rd l (512 * t + i) e' b) (set_own (set_ent gh a (upd (ent gh a) i e')) b None) G' V
| g_destroy : forall rd l t i a d b e' f' G',
    own gh a = Some (rd, l, t) -> is_rd G rd d -> i < 512 -> ent gh a i = ETable b ->
    (e' = if 512 * t + i <? parn (rd_ctx d) l then EUnDestr else EUnNs) -> g_ref (G b) = 0 ->
    words_ok (enable_lpa2 (rd_ctx d)) l f' (upd (ent gh a) i e') ->
    G' a = mkG RTT (g_ref (G a) - 1) (CW f') ->
    G' b = mkG DELEGATED 0 czero -> (forall z, z <> a -> z <> b -> G' z = G z) ->
    geff c gh G V (LDestroy rd l (512 * t + i) e' b) (set_own (set_ent gh a (upd (ent gh a) i e')) b None) G' V
| g_rd : forall rd d d' G',
    is_rd G rd d -> rd_le c d d' -> G' rd = mkG RD (g_ref (G rd)) (CRd d') -> (forall z, z <> rd -> G' z = G z) ->
    geff c gh G V (LRd rd d d') gh G' V
| g_rec : forall r rc rc' n G',
    is_rec G r rc -> r_g_rd rc' = r_g_rd rc -> r_idx rc' = r_idx rc -> r_aux rc' = r_aux rc ->
    (forall d, is_rd G (r_g_rd rc) d -> rec_ok c d rc -> rec_ok c d rc') -> n <= 1 ->
    G' r = mkG REC n (CRec rc') -> (forall z, z <> r -> G' z = G z) ->
    geff c gh G V (LRec r rc rc' n) gh G' V
| g_free : forall z0 G',
    ((fr (G z0) /\ fr (G' z0) /\ (g_state (G' z0) <> NS -> find_granule c z0 = true)) \/ word_change (G z0) (G' z0)) ->
    (forall z, z <> z0 -> G' z = G z) ->
    geff c gh G V (LFree z0 (G' z0)) gh G' V
| g_rec_create : forall rd d d' r rc G',
    is_rd G rd d -> rd_le c d d' -> rd_rec_count d' = rd_rec_count d + 1 -> g_ref (G rd) + 1 <= REFCOUNT_MAX ->
    g_state (G r) = DELEGATED -> (forall z, In z (r_aux rc) -> g_state (G z) = DELEGATED /\ z <> r) ->
    r_g_rd rc = rd -> r_idx rc = rd_rec_count d -> rec_ok c d' rc ->
    G' rd = mkG RD (g_ref (G rd) + 1) (CRd d') -> G' r = mkG REC 0 (CRec rc) ->
    (forall z, In z (r_aux rc) -> exists f, G' z = mkG REC_AUX 0 (CW f)) ->
    (forall z, z <> rd -> z <> r -> ~ In z (r_aux rc) -> G' z = G z) ->
    geff c gh G V (LRecCreate rd r d d' rc) (set_auxs (set_recs gh rd (r :: recs gh rd)) (r_aux rc) (Some r)) G' V
| g_rec_destroy : forall r rc d G',
    is_rec G r rc -> is_rd G (r_g_rd rc) d -> g_ref (G r) = 0 ->
    G' (r_g_rd rc) = mkG RD (g_ref (G (r_g_rd rc)) - 1) (CRd d) -> G' r = mkG DELEGATED 0 czero ->
    (forall z, In z (r_aux rc) -> G' z = mkG DELEGATED 0 czero) ->
    (forall z, z <> r_g_rd rc -> z <> r -> ~ In z (r_aux rc) -> G' z = G z) ->
    geff c gh G V (LRecDestroy (r_g_rd rc) r rc)
      (set_auxs (set_recs gh (r_g_rd rc) (remove N.eq_dec r (recs gh (r_g_rd rc)))) (r_aux rc) None) G' V
| g_realm_create : forall rd d G' V',
    g_state (G rd) = DELEGATED ->
    (forall k, k < num_root_rtts (rd_ctx d) ->
       g_state (G (g_rtt (rd_ctx d) + k * 4096)) = DELEGATED /\ g_rtt (rd_ctx d) + k * 4096 <> rd) ->
    rd_ok c d -> V (vmid (rd_ctx d)) = false -> (forall z, V' z = upd V (vmid (rd_ctx d)) true z) ->
    G' rd = mkG RD 0 (CRd d) ->
    (forall k, k < num_root_rtts (rd_ctx d) -> exists f, G' (g_rtt (rd_ctx d) + k * 4096) = mkG RTT 0 (CW f) /\
       words_ok (enable_lpa2 (rd_ctx d)) (s2_sl (rd_ctx d)) f (fun j => root_entry (rd_ctx d) (512 * k + j))) ->
    (forall z, z <> rd -> root_idx (g_rtt (rd_ctx d)) (num_root_rtts (rd_ctx d)) z = None -> G' z = G z) ->
    geff c gh G V (LRealmCreate rd d) (create_ghost gh rd d (fun k j => root_entry (rd_ctx d) (512 * k + j))) G' V'
| g_realm_destroy : forall rd d G' V',
    is_rd G rd d -> g_ref (G rd) = 0 ->
    (forall k, k < num_root_rtts (rd_ctx d) -> g_ref (G (g_rtt (rd_ctx d) + k * 4096)) = 0) ->
    (forall z, V' z = upd V (vmid (rd_ctx d)) false z) ->
    G' rd = mkG DELEGATED 0 czero ->
    (forall k, k < num_root_rtts (rd_ctx d) -> G' (g_rtt (rd_ctx d) + k * 4096) = mkG DELEGATED 0 czero) ->
    (forall z, z <> rd -> root_idx (g_rtt (rd_ctx d)) (num_root_rtts (rd_ctx d)) z = None -> G' z = G z) ->
    geff c gh G V (LRealmDestroy rd d) (destroy_ghost gh d) G' V'.

(* ------------------------------------------------------------------ *)
(** * Unfolding and folding an entry *)

Lemma pow2_split : forall a b, b <= a -> 2 ^ a = 2 ^ (a - b) * 2 ^ b.
Proof. intros. rewrite <- N.pow_add_r. f_equal. lia. Qed.

Lemma pa_ok_child : forall lpa2 l pa j, (1 <= l < 3)%Z -> pa_ok lpa2 l pa -> j < 512 -> pa_ok lpa2 (l + 1) (pa + j * ms (l + 1)).
Proof.
  intros lpa2 l pa j Hl [H1 H2] Hj. unfold pa_ok. fold (ms l) in H1. fold (ms (l + 1)).
  pose proof (ms_succ l ltac:(lia)) as M. pose proof (ms_pos (l + 1)) as P.
  assert (Q : exists q, 2 ^ oa_bits lpa2 = q * ms l).
  { exists (2 ^ (oa_bits lpa2 - lvl_lsb l)). apply pow2_split. unfold lvl_lsb, oa_bits, S2TTE_OA_BITS, S2TTE_OA_BITS_LPA2. destruct lpa2; lia. }
  destruct Q as (q & Q). rewrite Q in *.
  assert (E : pa = pa / ms l * ms l) by (pose proof (N.div_mod pa (ms l)); lia).
  set (k := pa / ms l) in *. split.
  - rewrite E, M. replace (k * (512 * ms (l + 1)) + j * ms (l + 1)) with ((k * 512 + j) * ms (l + 1)) by lia.
    apply N.mod_mul. lia.
  - assert (k < q). { rewrite E in H2. apply N.mul_lt_mono_pos_r in H2; [exact H2|lia]. }
    apply N.lt_le_trans with ((k + 1) * ms l); [rewrite E at 1; rewrite M; nia|apply N.mul_le_mono_r; lia].
Qed.

Lemma unfold_nontable : forall l e j, is_table_e (unfold_e l e j) = is_table_e e.
Proof. intros. destruct e; reflexivity. Qed.
Lemma unfold_asg : forall l e j, asg (unfold_e l e j) = match asg e with Some pa => Some (pa + j * ms l) | None => None end.
Proof. intros. destruct e; reflexivity. Qed.
Lemma unfold_counted : forall l e j, counted (unfold_e l e j) = counted e.
Proof. intros. destruct e; reflexivity. Qed.
Lemma unfold_0 : forall l e, unfold_e l e 0 = e.
Proof. intros. destruct e; cbn; rewrite ?N.mul_0_l, ?N.add_0_r; reflexivity. Qed.

Lemma unfold_valid : forall lpa2 l e j, (l < 3)%Z -> is_table_e e = false -> valid_entry lpa2 l e -> j < 512 ->
  valid_entry lpa2 (l + 1) (unfold_e (l + 1) e j).
Proof.
  intros lpa2 l e j Hl T V Hj. destruct e; try exact V; try discriminate; cbn in V |- *; unfold block_level in *;
    (split; [lia|]); try (apply pa_ok_child; [lia|apply V|exact Hj]).
  split; [apply pa_ok_child; [lia|apply V|exact Hj]|apply V].
Qed.

Lemma child_page : forall l p n j, (l < 3)%Z -> j < 512 -> p / pg (l + 1) = 512 * n + j ->
  p / pg l = n /\ p mod pg l = j * pg (l + 1) + p mod pg (l + 1).
Proof.
  intros l p n j Hl Hj H. split.
  - rewrite pnum_succ by assumption. rewrite H. lia.
  - rewrite pmod_succ by assumption. rewrite H. f_equal. f_equal. lia.
Qed.

Lemma unfold_ok : forall gh x rd l n e j, ctx_ok x -> (s2_sl x <= l < 3)%Z -> n < ipan x l -> is_table_e e = false ->
  entry_ok gh x rd l n e -> j < 512 -> entry_ok gh x rd (l + 1) (512 * n + j) (unfold_e (l + 1) e j).
Proof.
  intros gh x rd l n e j X Hl Hn T [V H] Hj. split; [apply unfold_valid; try assumption; lia|].
  pose proof (parn_succ x X l ltac:(lia)) as Ep. pose proof (ipan_succ x X l ltac:(lia)) as Ei.
  assert (D : forall pa, (forall p, p / pg l = n -> dmap gh (pa + p mod pg l * 4096) = Some (rd, p)) ->
     forall p, p / pg (l + 1) = 512 * n + j -> dmap gh (pa + j * ms (l + 1) + p mod pg (l + 1) * 4096) = Some (rd, p)).
  { intros pa K p Hp. destruct (child_page l p n j ltac:(lia) Hj Hp) as (P1 & P2). rewrite <- (K p P1), P2.
    f_equal. rewrite (ms_pg (l + 1)) by lia. ring. }
  destruct e; cbn [unfold_e] in *; rewrite ?Ep, ?Ei; try lia; try (destruct H as [H1 H2]; split; [lia|exact (D _ H2)]).
  discriminate.
Qed.

Lemma fold_ok : forall gh x rd l n e, ctx_ok x -> (s2_sl x <= l < 3)%Z -> n < ipan x l -> is_table_e e = false ->
  valid_entry (enable_lpa2 x) l e ->
  (forall j, j < 512 -> entry_ok gh x rd (l + 1) (512 * n + j) (unfold_e (l + 1) e j)) -> entry_ok gh x rd l n e.
Proof.
  intros gh x rd l n e X Hl Hn T V H. split; [exact V|].
  pose proof (parn_succ x X l ltac:(lia)) as Ep. pose proof (ipan_succ x X l ltac:(lia)) as Ei.
  pose proof (H 0 ltac:(lia)) as [_ H0]. rewrite unfold_0 in H0. rewrite N.add_0_r in H0.
  assert (D : forall pa, (forall j, j < 512 -> forall p, p / pg (l + 1) = 512 * n + j ->
        dmap gh (pa + j * ms (l + 1) + p mod pg (l + 1) * 4096) = Some (rd, p)) ->
     forall p, p / pg l = n -> dmap gh (pa + p mod pg l * 4096) = Some (rd, p)).
  { intros pa K p Hp. set (j := (p / pg (l + 1)) mod 512).
    assert (Hj : j < 512) by apply mod512_lt.
    assert (E : p / pg (l + 1) = 512 * n + j).
    { unfold j. rewrite (div512 (p / pg (l + 1))) at 1. rewrite <- pnum_succ by lia. rewrite Hp. reflexivity. }
    rewrite <- (K j Hj p E). destruct (child_page l p n j ltac:(lia) Hj E) as (_ & P2). rewrite P2.
    f_equal. rewrite (ms_pg (l + 1)) by lia. ring. }
  destruct e; cbn [unfold_e] in *; rewrite ?Ep, ?Ei in *; try lia; try discriminate;
    (split; [lia|]; apply D; intros j Hj; apply (proj2 (proj2 (H j Hj)))).
Qed.

Lemma cnt_unfold : forall l e, cnt (unfold_e l e) = if counted e then 512 else 0.
Proof.
  intros l e. destruct (counted e) eqn:C.
  - apply cnt_512. intros. rewrite unfold_counted. exact C.
  - apply cnt_0. intros. rewrite unfold_counted. exact C.
Qed.

Lemma uncounted_noasg : forall e, counted e = false -> is_table_e e = false /\ asg e = None.
Proof. intros [] H; try discriminate; split; reflexivity. Qed.

Lemma root_entry_ok : forall gh x rd n, entry_ok gh x rd (s2_sl x) n (root_entry x n).
Proof.
  intros. unfold root_entry. destruct (N.ltb_spec n (parn x (s2_sl x))); [split; [exact I|left; assumption]|].
  destruct (N.ltb_spec n (ipan x (s2_sl x))); split; try exact I; cbn iota; lia.
Qed.

(** Entries of a table of a realm number less than the address space when they
    are tables *)
Lemma geff_inv : forall c gh G V lab gh' G' V', Inv c gh G V -> geff c gh G V lab gh' G' V' -> Inv c gh' G' V'.
Proof.
  intros c gh G V lab gh' G' V' I H. destruct H.
  - eapply inv_entry; eassumption.
  - eapply inv_entry_assign; try eassumption. reflexivity.
  - eapply inv_entry_release; try eassumption. reflexivity.
  - pose proof (inv_own _ _ _ _ I _ _ _ _ _ H H0) as T. pose proof (inv_ctx _ _ _ _ I _ _ H0) as X.
    pose proof (t_level_ok _ _ _ _ _ _ _ T).
    eapply (inv_attach c gh G G' V I a rd t i b l d); try eassumption.
    + intros j Hj. rewrite unfold_nontable, unfold_asg. split; [assumption|]. split; [|reflexivity].
      apply unfold_ok; try assumption; try lia. apply (t_entries _ _ _ _ _ _ _ T i H1).
    + rewrite cnt_unfold. assumption.
  - pose proof (inv_own _ _ _ _ I _ _ _ _ _ H H0) as T. pose proof (inv_ctx _ _ _ _ I _ _ H0) as X.
    pose proof (t_level_ok _ _ _ _ _ _ _ T).
    destruct (own_child _ _ _ _ I _ _ _ _ _ _ H H1 H2) as (Ob & L3).
    pose proof (inv_own _ _ _ _ I _ _ _ _ _ Ob H0) as TB.
    pose proof (t_entries _ _ _ _ _ _ _ T i H1) as EE. rewrite H2 in EE. destruct EE as (_ & EN & _).
    eapply (inv_detach c gh G G' V I a rd t i b l d); try eassumption.
    + apply fold_ok; try assumption; try lia. intros j Hj. rewrite <- H5 by assumption.
      apply (t_entries _ _ _ _ _ _ _ TB j Hj).
    + intros j Hj. rewrite H5, unfold_nontable, unfold_asg by assumption. auto.
  - pose proof (inv_own _ _ _ _ I _ _ _ _ _ H H0) as T. pose proof (inv_ctx _ _ _ _ I _ _ H0) as X.
    destruct (own_child _ _ _ _ I _ _ _ _ _ _ H H1 H2) as (Ob & L3).
    pose proof (inv_own _ _ _ _ I _ _ _ _ _ Ob H0) as TB.
    pose proof (t_entries _ _ _ _ _ _ _ T i H1) as EE. rewrite H2 in EE. destruct EE as (_ & EN & _).
    assert (Z : cnt (ent gh b) = 0) by (rewrite <- (t_ref _ _ _ _ _ _ _ TB); assumption).
    rewrite cnt_0 in Z.
    eapply (inv_detach c gh G G' V I a rd t i b l d); try eassumption.
    + rewrite H3. destruct (_ <? _); reflexivity.
    + rewrite H3. destruct (N.ltb_spec (512 * t + i) (parn (rd_ctx d) l)); split; cbn; auto.
    + intros j Hj. destruct (uncounted_noasg _ (Z j Hj)) as (Z1 & Z2). rewrite Z1, Z2. split; [reflexivity|].
      rewrite H3. destruct (_ <? _); reflexivity.
    + rewrite H6. f_equal. rewrite H3. destruct (_ <? _); cbn; lia.
  - eapply inv_rd_upd; eassumption.
  - eapply inv_rec_upd; eassumption.
  - eapply inv_free; [eassumption|]. intro z. destruct (N.eq_dec z z0) as [->|n]; [right; assumption|left; auto].
  - eapply inv_rec_create; eassumption.
  - eapply inv_rec_destroy; eassumption.
  - eapply inv_realm_create; try eassumption. intros k j Hk Hj. split; [|apply root_entry_ok].
    unfold root_entry. destruct (_ <? _); [reflexivity|]. destruct (_ <? _); reflexivity.
  - eapply inv_realm_destroy; eassumption.
Qed.

(** Sequences of effects; the last state is given up to pointwise equality *)
Inductive geffs (c : cfg) : ghost -> (N -> granule) -> (N -> bool) -> list label -> ghost -> (N -> granule) -> (N -> bool) -> Prop :=
| gs_nil : forall gh G V G' V', (forall z, G' z = G z) -> (forall z, V' z = V z) -> geffs c gh G V [] gh G' V'
| gs_cons : forall gh G V lab gh1 G1 V1 labs gh' G' V',
    geff c gh G V lab gh1 G1 V1 -> geffs c gh1 G1 V1 labs gh' G' V' -> geffs c gh G V (lab :: labs) gh' G' V'.

Lemma geffs_inv : forall c gh G V labs gh' G' V', geffs c gh G V labs gh' G' V' -> Inv c gh G V -> Inv c gh' G' V'.
Proof.
  intros c gh G V labs gh' G' V' H. induction H; intro I.
  - eapply inv_ext; eassumption.
  - apply IHgeffs. eapply geff_inv; eassumption.
Qed.
Lemma geffs_one : forall c gh G V lab gh' G' V', geff c gh G V lab gh' G' V' -> geffs c gh G V [lab] gh' G' V'.
Proof. intros. econstructor; [eassumption|]. constructor; reflexivity. Qed.
Lemma geffs_app : forall c gh G V l1 gh1 G1 V1 l2 gh' G' V', geffs c gh G V l1 gh1 G1 V1 ->
  (forall G2 V2, (forall z, G2 z = G1 z) -> (forall z, V2 z = V1 z) -> geffs c gh1 G2 V2 l2 gh' G' V') ->
  geffs c gh G V (l1 ++ l2) gh' G' V'.
Proof.
  intros c gh G V l1 gh1 G1 V1 l2 gh' G' V' H. induction H; intro K; cbn [app].
  - apply K; intro; symmetry; auto.
  - econstructor; [eassumption|]. apply IHgeffs, K.
Qed.

(** TLB invalidations *)
Definition invals (l : list (N * N * N)) (T : list tlbe) : list tlbe :=
  fold_left (fun T i => tlb_inval (fst (fst i)) (snd (fst i)) (snd i) T) l T.

Definition free (f : N -> bool) : Prop := forall z, f z = false.
Definition quiet (s : state) : Prop := free (s_locks s) /\ free (s_slots s).

(** What is known after a command: no lock and no slot is taken; a command
    that fails changes nothing and [F] tells why; one that succeeds has the
    effects [P] tells. *)
Definition cmd_post (c : cfg) (gh : ghost) (G : N -> granule) (V : N -> bool) (T : list tlbe)
    (code : N) (F : Prop) (P : ghost -> list label -> list (N * N * N) -> Prop) (s' : state) : Prop :=
  quiet s' /\
  (code <> RMI_SUCCESS -> ((forall z, s_gr s' z = G z) /\ (forall z, s_vmids s' z = V z) /\ s_tlb s' = T) /\ F) /\
  (code = RMI_SUCCESS -> exists labs gh' inv,
     geffs c gh G V labs gh' (s_gr s') (s_vmids s') /\ s_tlb s' = invals inv T /\ P gh' labs inv).
