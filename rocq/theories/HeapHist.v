(** The invariant of all heaps, over histories *)
From Coq Require Import NArith ZArith List Bool Lia ZifyBool ZifyN.
From Verif Require Import Heap SpecHeap HeapList HeapFacts HeapOps HeapFree HeapRun HeapInv.
Import ListNotations.
Local Open Scope N_scope.
Ltac Zify.zify_post_hook ::= Z.div_mod_to_equations.

(** ** Bytes *)
Lemma pow_add8 : forall k d, 2 ^ (k + d) = 2 ^ k * 2 ^ d.
Proof. intros. apply N.pow_add_r. Qed.
Lemma pow_nz : forall k, 2 ^ k <> 0.
Proof. intro. apply N.pow_nonzero. discriminate. Qed.
(** The bits below [k] do not depend on those above *)
Lemma byte_low : forall x j k, j + 8 <= k -> x / 2 ^ j mod 256 = (x mod 2 ^ k) / 2 ^ j mod 256.
Proof.
  intros x j k L. change 256 with (2 ^ 8). apply N.bits_inj. intro i. destruct (N.lt_ge_cases i 8) as [H|H].
  - rewrite !N.mod_pow2_bits_low, !N.div_pow2_bits by exact H. rewrite N.mod_pow2_bits_low by lia. reflexivity.
  - rewrite !N.mod_pow2_bits_high by exact H. reflexivity.
Qed.
Lemma zero_byte : forall x j k, j + 8 <= k -> x mod 2 ^ k = 0 -> x / 2 ^ j mod 256 = 0.
Proof. intros x j k L E. rewrite (byte_low x j k L), E, N.div_0_l by apply pow_nz. reflexivity. Qed.
Lemma byte_put : forall m a v b, byte (put_byte m a v) b = if b =? a then v mod 256 else byte m b.
Proof.
  intros m a v b. unfold byte, put_byte. set (k := 8 * (a mod 8)). set (j := 8 * (b mod 8)). set (x := m (a / 8 * 8)).
  unfold put. destruct (N.eqb_spec (b / 8 * 8) (a / 8 * 8)) as [E|NE].
  2:{ destruct (N.eqb_spec b a) as [->|_]; [congruence|reflexivity]. }
  rewrite E. fold x. set (hi := x / 2 ^ (k + 8)). set (lo := x mod 2 ^ k).
  assert (Llo : lo < 2 ^ k) by (apply N.mod_lt, pow_nz). assert (Lv : v mod 256 < 2 ^ 8) by (apply (N.mod_lt v 256); discriminate).
  assert (EX : hi * 2 ^ (k + 8) + v mod 256 * 2 ^ k + lo = (hi * 2 ^ 8 + v mod 256) * 2 ^ k + lo) by (rewrite pow_add8; lia). rewrite EX.
  destruct (N.eqb_spec b a) as [->|NE].
  - fold k. assert (D : ((hi * 2 ^ 8 + v mod 256) * 2 ^ k + lo) / 2 ^ k = hi * 2 ^ 8 + v mod 256) by (rewrite N.div_add_l by apply pow_nz; rewrite (N.div_small lo) by exact Llo; lia).
    replace j with k by reflexivity. rewrite D. change (2 ^ 8) with 256. rewrite N.add_comm, N.mod_add by discriminate. apply N.mod_mod. discriminate.
  - assert (C : k + 8 <= j \/ j + 8 <= k) by (unfold j, k; clear - E NE; lia). clearbody j k. destruct C as [C|C].
    + replace j with (k + 8 + (j - (k + 8))) by (clear - C; lia). rewrite !(N.pow_add_r 2 (k + 8)), <- !N.div_div by apply pow_nz. f_equal. f_equal.
      rewrite pow_add8 at 1. rewrite <- N.div_div by apply pow_nz. rewrite N.div_add_l by apply pow_nz. rewrite (N.div_small lo) by exact Llo. rewrite N.add_0_r, N.div_add_l by apply pow_nz.
      rewrite (N.div_small (v mod 256)) by exact Lv. apply N.add_0_r.
    + rewrite (byte_low _ j k C), (byte_low x j k C). f_equal. f_equal. rewrite N.add_comm, N.mod_add by apply pow_nz. fold lo. apply N.mod_small, Llo.
Qed.

(** ** One heap *)
Definition lives (B : list blk) (L : list alloc) (i : N) : Prop :=
  (forall x, In x L -> al_heap x = i -> exists b, In b B /\ bal b = true /\ al_ptr x = ba b + 64 /\ 0 < al_len x <= bs b /\ bs b < up8 (al_len x) + 72) /\
  (forall b, In b B -> bal b = true -> exists x, In x L /\ al_heap x = i /\ al_ptr x = ba b + 64).
Definition heap_ok (m : words) (h : hctx) (a : option (N * N)) (L : list alloc) (i : N) : Prop :=
  N.land (hc_verify h) VERIFY_FREE = 0 /\
  match a with
  | Some (buf, len) =>
      0 < buf /\ buf + len < 2 ^ 64 /\
      if len <? 72 then hc_buf h = 0 /\ hc_first h = 0 /\ (forall x, In x L -> al_heap x <> i)
      else hc_buf h = up8 buf /\ hc_buf h + hc_len h = buf + len /\ exists B F, HI m h B F /\ lives B L i
  | None => hc_buf h = 0 /\ hc_first h = 0 /\ (forall x, In x L -> al_heap x <> i)
  end.

Definition key (x : alloc) : N * N := (al_heap x, al_ptr x).
Record inv (s : hstate) (L : list alloc) (A : arenas) : Prop := mkInv {
  v_heap : forall i, heap_ok (hs_mem s) (hs_ctx s i) (A i) L i;
  v_apart : forall i j b n c k, i <> j -> A i = Some (b, n) -> A j = Some (c, k) -> apart b n c k;
  v_nd : NoDup (map key L)
}.

(** Words of a heap *)
Definition in_arena (a : option (N * N)) (w : N) : Prop := match a with Some (buf, len) => up8 buf <= w < buf + len | None => False end.
Lemma hi_frame : forall m m' h B F, HI m h B F -> (forall w, w mod 8 = 0 -> hc_buf h <= w < hc_buf h + hc_len h -> m' w = m w) -> HI m' h B F.
Proof.
  intros m m' h B F [H C] E. split; [|exact C]. eapply HC_frame; [exact H|]. intros a f Ia Hf. apply addr_in in Ia. destruct Ia as (b & Ib & <-).
  pose proof (c_mod _ _ _ _ _ H b Ib). pose proof (tiles_in _ _ _ _ (c_tiles _ _ _ _ _ H) Ib). unfold ld. apply E; lia.
Qed.
Lemma heap_frame : forall m m' h a L i, heap_ok m h a L i -> (forall w, w mod 8 = 0 -> in_arena a w -> m' w = m w) -> heap_ok m' h a L i.
Proof.
  intros m m' h a L i [V H] E. split; [exact V|]. destruct a as [[buf len]|]; [|exact H]. destruct H as (P & Q & H). split; [exact P|]. split; [exact Q|].
  destruct (len <? 72); [exact H|]. destruct H as (H1 & H2 & B & F & HH & HL). split; [exact H1|]. split; [exact H2|]. exists B, F. split; [|exact HL].
  eapply hi_frame; [exact HH|]. intros w W1 W2. apply E; [exact W1|]. cbn. lia.
Qed.
(** Allocations of other heaps do not matter *)
Lemma heap_live : forall m h a L L' i, heap_ok m h a L i -> (forall x, al_heap x = i -> (In x L' <-> In x L)) -> heap_ok m h a L' i.
Proof.
  intros m h a L L' i [V H] E. split; [exact V|].
  assert (N : (forall x, In x L -> al_heap x <> i) -> (forall x, In x L' -> al_heap x <> i)) by (intros K x Ix Ex; apply (K x); [apply E; assumption|exact Ex]).
  destruct a as [[buf len]|].
  - destruct H as (P & Q & H). split; [exact P|]. split; [exact Q|]. destruct (len <? 72); [intuition|]. destruct H as (H1 & H2 & B & F & HH & L1 & L2). split; [exact H1|]. split; [exact H2|]. exists B, F. split; [exact HH|]. split.
    + intros x Ix Ex. apply L1; [apply E; assumption|exact Ex].
    + intros b Ib Ab. destruct (L2 b Ib Ab) as (x & Ix & Ex & Px). exists x. split; [apply E; assumption|auto].
  - intuition.
Qed.
Lemma in_arena_apart : forall (A : arenas) i j w, (forall b n c k, A i = Some (b, n) -> A j = Some (c, k) -> apart b n c k) -> in_arena (A i) w -> in_arena (A j) w -> False.
Proof.
  intros A i j w AP H1 H2. unfold in_arena in *. destruct (A i) as [[b n]|]; [|exact H1]. destruct (A j) as [[c k]|]; [|exact H2].
  specialize (AP b n c k eq_refl eq_refl). unfold apart, up8 in *. lia.
Qed.

(** ** Where an allocation is *)
Lemma inv_block : forall s L A x, inv s L A -> In x L -> exists buf len B F b, A (al_heap x) = Some (buf, len) /\ 72 <= len /\ 0 < buf /\ buf + len < 2 ^ 64 /\
  hc_buf (hs_ctx s (al_heap x)) = up8 buf /\ hc_buf (hs_ctx s (al_heap x)) + hc_len (hs_ctx s (al_heap x)) = buf + len /\
  HI (hs_mem s) (hs_ctx s (al_heap x)) B F /\ lives B L (al_heap x) /\ In b B /\ bal b = true /\ al_ptr x = ba b + 64 /\ 0 < al_len x <= bs b.
Proof.
  intros s L A x V Ix. destruct (v_heap _ _ _ V (al_heap x)) as [_ H]. destruct (A (al_heap x)) as [[buf len]|] eqn:EA.
  2:{ exfalso. destruct H as (_ & _ & H). exact (H x Ix eq_refl). }
  destruct H as (P & Q & H). destruct (N.ltb_spec len 72) as [K|K]; [exfalso; destruct H as (_ & _ & H); exact (H x Ix eq_refl)|].
  destruct H as (H1 & H2 & B & F & HH & HL). destruct (proj1 HL x Ix eq_refl) as (b & Ib & Ab & Pb & Sb & _). exists buf, len, B, F, b. auto 20.
Qed.
Lemma inv_place : forall s L A x, inv s L A -> In x L -> exists buf len, A (al_heap x) = Some (buf, len) /\ 72 <= len /\ up8 buf + 64 <= al_ptr x /\ al_ptr x + al_len x <= buf + len /\ al_ptr x mod 8 = 0.
Proof.
  intros s L A x V Ix. destruct (inv_block _ _ _ _ V Ix) as (buf & len & B & F & b & EA & LL & P & Q & E1 & E2 & [HH _] & _ & Ib & Ab & Pb & Sb).
  exists buf, len. split; [exact EA|]. split; [exact LL|]. pose proof (tiles_in _ _ _ _ (c_tiles _ _ _ _ _ HH) Ib). pose proof (c_mod _ _ _ _ _ HH b Ib). lia.
Qed.
Lemma inv_pair : forall s L A x y, inv s L A -> In x L -> In y L -> key x <> key y -> apart (al_ptr x - 64) (64 + al_len x) (al_ptr y - 64) (64 + al_len y).
Proof.
  intros s L A x y V Ix Iy N. destruct (inv_block _ _ _ _ V Ix) as (buf & len & B & F & b & EA & LL & P & Q & E1 & E2 & [HH CO] & HL & Ib & Ab & Pb & Sb).
  destruct (N.eq_dec (al_heap x) (al_heap y)) as [EH|NH].
  - destruct (proj1 HL y Iy (eq_sym EH)) as (c & Ic & Ac & Pc & Sc & _). destruct (tiles_two _ _ _ _ _ (c_tiles _ _ _ _ _ HH) Ib Ic) as [->|K].
    + exfalso. apply N. unfold key. congruence.
    + unfold apart. lia.
  - destruct (inv_place _ _ _ _ V Ix) as (b1 & l1 & A1 & _ & X1 & X2 & X3). destruct (inv_place _ _ _ _ V Iy) as (b2 & l2 & A2 & _ & Y1 & Y2 & Y3).
    pose proof (v_apart _ _ _ V _ _ _ _ _ _ NH A1 A2) as K. unfold apart, up8 in *. lia.
Qed.

Definition on_ctx (s s' : hstate) (i : N) : Prop := forall j, j <> i -> hs_ctx s' j = hs_ctx s j.

(** The word of a byte of an allocation is in no header *)
Lemma data_word : forall s L A x c, inv s L A -> In x L -> al_ptr x <= c < al_ptr x + al_len x ->
  in_arena (A (al_heap x)) (c / 8 * 8) /\
  forall B F, HI (hs_mem s) (hs_ctx s (al_heap x)) B F -> lives B L (al_heap x) -> exists b, In b B /\ bal b = true /\ al_ptr x = ba b + 64 /\ ba b + 64 <= c / 8 * 8 < ba b + 64 + bs b /\ outside (addrs B) (c / 8 * 8).
Proof.
  intros s L A x c V Ix Hc. destruct (inv_place _ _ _ _ V Ix) as (buf & len & EA & _ & X1 & X2 & X3). split.
  - rewrite EA. cbn. lia.
  - intros B F [HH _] [L1 _]. destruct (L1 x Ix eq_refl) as (b & Ib & Ab & Pb & Sb & _). exists b. split; [exact Ib|]. split; [exact Ab|]. split; [exact Pb|].
    assert (W : ba b + 64 <= c / 8 * 8 < ba b + 64 + bs b) by lia. split; [exact W|]. intros a Ia. apply addr_in in Ia. destruct Ia as (d & Id & <-).
    destruct (tiles_two _ _ _ _ _ (c_tiles _ _ _ _ _ HH) Ib Id) as [<-|K]; lia.
Qed.

Definition same_bytes (s s' : hstate) (x : alloc) : Prop := forall c, al_ptr x <= c < al_ptr x + al_len x -> byte (hs_mem s') c = byte (hs_mem s) c.
Lemma byte_word : forall m m' c, m' (c / 8 * 8) = m (c / 8 * 8) -> byte m' c = byte m c.
Proof. intros m m' c E. unfold byte. rewrite E. reflexivity. Qed.

Lemma inv_ext : forall s s' L A, inv s L A -> hs_mem s' = hs_mem s -> (forall j, hs_ctx s' j = hs_ctx s j) -> inv s' L A.
Proof. intros s s' L A [V1 V2 V3] E1 E2. constructor; [|exact V2|exact V3]. intro i. rewrite E1, E2. apply V1. Qed.

Lemma set_ctx_eq : forall f i h, set_ctx f i h i = h.
Proof. intros. unfold set_ctx. rewrite N.eqb_refl. reflexivity. Qed.
Lemma set_ctx_ne : forall f i h j, j <> i -> set_ctx f i h j = f j.
Proof. intros f i h j N. unfold set_ctx. rewrite (proj2 (N.eqb_neq _ _) N). reflexivity. Qed.
Lemma set_ctx_same : forall f i j, set_ctx f i (f i) j = f j.
Proof. intros f i j. unfold set_ctx. destruct (N.eqb_spec j i) as [->|]; reflexivity. Qed.

(** Words outside of the heap are outside of its headers *)
Lemma out_heap : forall m h B F lim w, HC m h B F lim -> ~ (hc_buf h <= w < hc_buf h + hc_len h) -> outside (addrs B) w.
Proof.
  intros m h B F lim w H N a Ia. apply addr_in in Ia. destruct Ia as (b & Ib & <-). pose proof (tiles_in _ _ _ _ (c_tiles _ _ _ _ _ H) Ib). lia.
Qed.

(** ** calloc *)
Lemma calloc_step : forall s L A p i n size, inv s L A -> hs_cpu s p = Some i -> n < 2 ^ 64 -> size < 2 ^ 64 ->
  exists s' a, hstep s (HCalloc p n size) = Some (s', HPtr a) /\ hs_cpu s' = hs_cpu s /\
    ((a = 0 /\ hs_mem s' = hs_mem s /\ (forall j, hs_ctx s' j = hs_ctx s j) /\
      (forall buf len, A i = Some (buf, len) -> 72 <= len -> 0 < n * size <= 2 ^ 64 - 8 ->
         exists B F, HI (hs_mem s) (hs_ctx s i) B F /\ lives B L i /\ hc_buf (hs_ctx s i) = up8 buf /\ hc_buf (hs_ctx s i) + hc_len (hs_ctx s i) = buf + len /\ forall b, In b B -> bal b = false -> bs b < up8 (n * size))) \/
     (a <> 0 /\ 0 < n * size <= 2 ^ 64 - 8 /\ inv s' (mkAlloc i a (n * size) :: L) A /\ (forall c, a <= c < a + n * size -> byte (hs_mem s') c = 0) /\ forall x, In x L -> same_bytes s s' x)).
Proof.
  intros s L A p i n size V EP Hn Hs. unfold hstep. rewrite EP. pose proof (v_heap _ _ _ V i) as HK. pose proof HK as [VF HO].
  assert (NUL : hc_buf (hs_ctx s i) = 0 -> calloc_with_heap (hs_mem s) (hs_ctx s i) n size = Some (hs_mem s, hs_ctx s i, 0)) by (intro Z; unfold calloc_with_heap; rewrite Z; reflexivity).
  assert (NONE : hc_buf (hs_ctx s i) = 0 -> (forall buf len, A i = Some (buf, len) -> 72 <= len -> False) ->
    exists s' a, match calloc_with_heap (hs_mem s) (hs_ctx s i) n size with Some (m, h, a) => Some (mkHs m (set_ctx (hs_ctx s) i h) (hs_cpu s), HPtr a) | None => None end = Some (s', HPtr a) /\ hs_cpu s' = hs_cpu s /\
    ((a = 0 /\ hs_mem s' = hs_mem s /\ (forall j, hs_ctx s' j = hs_ctx s j) /\
      (forall buf len, A i = Some (buf, len) -> 72 <= len -> 0 < n * size <= 2 ^ 64 - 8 ->
         exists B F, HI (hs_mem s) (hs_ctx s i) B F /\ lives B L i /\ hc_buf (hs_ctx s i) = up8 buf /\ hc_buf (hs_ctx s i) + hc_len (hs_ctx s i) = buf + len /\ forall b, In b B -> bal b = false -> bs b < up8 (n * size))) \/
     (a <> 0 /\ 0 < n * size <= 2 ^ 64 - 8 /\ inv s' (mkAlloc i a (n * size) :: L) A /\ (forall c, a <= c < a + n * size -> byte (hs_mem s') c = 0) /\ forall x, In x L -> same_bytes s s' x))).
  { intros Z NA. rewrite (NUL Z). eexists _, 0. split; [reflexivity|]. split; [reflexivity|]. left. split; [reflexivity|]. split; [reflexivity|]. cbn [hs_ctx]. split; [apply set_ctx_same|]. intros buf len K1 K2. destruct (NA _ _ K1 K2). }
  destruct (A i) as [[buf len]|] eqn:EA; [|apply NONE; [exact (proj1 HO)|discriminate]]. destruct HO as (P & Q & HO).
  destruct (N.ltb_spec len 72) as [K|K]; [apply NONE; [exact (proj1 HO)|intros ? ? E; injection E as <- <-; lia]|]. clear NONE NUL.
  destruct HO as (H1 & H2 & B & F & HH & HL). destruct (calloc_spec _ _ _ _ n size HH Hn Hs) as [[EC WHY]|(PK & m' & h' & B' & F' & b0 & sz & EC & TK)]; rewrite EC.
  { eexists _, 0. split; [reflexivity|]. split; [reflexivity|]. left. split; [reflexivity|]. split; [reflexivity|]. cbn [hs_ctx]. split; [apply set_ctx_same|].
    intros buf' len' K1 K2 PK. injection K1 as <- <-. destruct WHY as [W|[W|W]]; [lia|lia|]. exists B, F. auto. }
  destruct TK as (I0 & F0 & HH' & SC & S1 & S2 & S3 & BB & FR & ZR). pose proof HH as [HC0 CO0]. pose proof (tiles_in _ _ _ _ (c_tiles _ _ _ _ _ HC0) I0) as [T1 T2]. pose proof (c_mod _ _ _ _ _ HC0 b0 I0) as M0.
  destruct SC as (SC1 & SC2 & SC3 & SC4).
  assert (UP : n * size <= up8 (n * size)) by (unfold up8; lia). set (s' := mkHs m' (set_ctx (hs_ctx s) i h') (hs_cpu s)).
  exists s', (ba b0 + 64). split; [reflexivity|]. split; [reflexivity|]. right. split; [lia|]. split; [exact PK|]. split; [|split].
  - constructor.
    + intro j. unfold s'. cbn [hs_mem hs_ctx]. destruct (N.eq_dec j i) as [->|NJ].
      * rewrite set_ctx_eq, EA. split; [rewrite SC4; exact VF|]. split; [exact P|]. split; [exact Q|]. replace (len <? 72) with false by lia. rewrite SC1, SC2. split; [exact H1|]. split; [exact H2|].
        exists B', F'. split; [exact HH'|]. destruct HL as [L1 L2]. split.
        -- intros x [<-|Ix] Ex.
           ++ cbn [al_ptr al_len]. exists (mkBlk (ba b0) sz true). split; [apply BB; auto|]. cbn [bal ba bs]. split; [reflexivity|]. split; [reflexivity|]. lia.
           ++ destruct (L1 x Ix Ex) as (b & Ib & Ab & R). exists b. split; [apply BB; auto|]. auto.
        -- intros b Ib Ab. apply BB in Ib; [|exact Ab]. destruct Ib as [Ib| ->].
           ++ destruct (L2 b Ib Ab) as (x & Ix & R). exists x. split; [right; exact Ix|exact R].
           ++ eexists. split; [left; reflexivity|]. auto.
      * rewrite set_ctx_ne by exact NJ. apply heap_live with (L := L); [|intros x Ex; cbn; split; [intros [<-|Ix]; [cbn in Ex; congruence|exact Ix]|auto]].
        apply heap_frame with (m := hs_mem s); [apply (v_heap _ _ _ V)|]. intros w W1 W2.
        assert (NI : ~ in_arena (A i) w) by (intro K3; apply (in_arena_apart A i j w); [intros ? ? ? ? ? ?; eapply (v_apart _ _ _ V i j); eauto|exact K3|exact W2]).
        rewrite EA in NI. cbn in NI. apply FR; [lia|]. apply (out_heap _ _ _ _ _ _ HC0). lia.
    + exact (v_apart _ _ _ V).
    + cbn [map]. constructor; [|exact (v_nd _ _ _ V)]. intro IK. apply in_map_iff in IK. destruct IK as (y & Ey & Iy). unfold key in Ey. cbn in Ey. injection Ey as E1 E2.
      destruct (proj1 HL y Iy E1) as (b & Ib & Ab & Pb & _). assert (b = b0) by (apply (tiles_fun _ _ _ _ _ (c_tiles _ _ _ _ _ HC0) Ib I0); lia). congruence.
  - intros c Hc. unfold byte, s'. cbn [hs_mem]. eapply zero_byte; [|apply ZR]; lia.
  - intros x Ix c Hc. apply byte_word. unfold s'. cbn [hs_mem]. destruct (data_word _ _ _ _ _ V Ix Hc) as [AR DW]. destruct (N.eq_dec (al_heap x) i) as [EX|NX].
    + rewrite EX in DW. destruct (DW B F HH HL) as (b & Ib & Ab & Pb & Wb & OB). apply FR; [|exact OB].
      destruct (tiles_two _ _ _ _ _ (c_tiles _ _ _ _ _ HC0) Ib I0) as [E|E]; [congruence|lia].
    + assert (NI : ~ in_arena (A i) (c / 8 * 8)) by (intro K3; apply (in_arena_apart A i (al_heap x) (c / 8 * 8)); [intros ? ? ? ? ? ?; eapply (v_apart _ _ _ V i (al_heap x)); eauto|exact K3|exact AR]).
      rewrite EA in NI. cbn in NI. apply FR; [lia|]. apply (out_heap _ _ _ _ _ _ HC0). lia.
Qed.

(** ** free *)
Lemma nd_filter : forall f L, NoDup (map key L) -> NoDup (map key (filter f L)).
Proof.
  induction L as [|x L IH]; intro H; cbn [filter map] in *; [constructor|]. inversion H; subst. destruct (f x); [|auto]. cbn [map]. constructor; [|auto].
  intro K. apply H2. apply in_map_iff in K. destruct K as (y & E & I). apply filter_In in I. apply in_map_iff. exists y. tauto.
Qed.
Lemma key_dec : forall i ptr x, negb ((al_heap x =? i) && (al_ptr x =? ptr)) = true <-> ~ (al_heap x = i /\ al_ptr x = ptr).
Proof. intros. lia. Qed.
Lemma free_step : forall s L A p i ptr, inv s L A -> hs_cpu s p = Some i -> ptr = 0 \/ (exists n, In (mkAlloc i ptr n) L) ->
  exists s', hstep s (HFree p ptr) = Some (s', HNone) /\ hs_cpu s' = hs_cpu s /\ inv s' (live_after (Some i) (HFree p ptr) HNone L) A /\ forall x, In x L -> same_bytes s s' x.
Proof.
  intros s L A p i ptr V EP HP. unfold hstep. rewrite EP. cbn [live_after]. destruct (N.eq_dec ptr 0) as [->|ZP].
  { unfold free_with_heap. cbn [N.eqb orb]. eexists. split; [reflexivity|]. split; [reflexivity|]. split; [|intros x _ c _; reflexivity].
    assert (SAME : forall x, In x (filter (fun x => negb ((al_heap x =? i) && (al_ptr x =? 0))) L) <-> In x L).
    { intro x. rewrite filter_In. split; [tauto|]. intro Ix. split; [exact Ix|]. apply key_dec. intros [_ Z]. destruct (inv_place _ _ _ _ V Ix) as (b & n & _ & _ & X & _). lia. }
    constructor; [|exact (v_apart _ _ _ V)|apply nd_filter, (v_nd _ _ _ V)]. intro j. cbn [hs_mem hs_ctx]. rewrite set_ctx_same.
    apply heap_live with (L := L); [apply (v_heap _ _ _ V)|]. intros x _. apply SAME. }
  destruct HP as [Z|[n In_]]; [contradiction|]. destruct (inv_block _ _ _ _ V In_) as (buf & len & B & F & b0 & EA & LL & P & Q & E1 & E2 & HH & HL & I0 & A0 & Pb & Sb). cbn [al_heap al_ptr al_len] in *.
  destruct (free_core _ _ _ _ b0 HH I0 A0) as (m' & h' & B' & F' & EF & HH' & FR & (SC1 & SC2 & SC3 & SC4) & BB); [lia|]. destruct (v_heap _ _ _ V i) as [VF _]. rewrite VF in EF. cbn [N.eqb] in EF.
  rewrite Pb, EF. set (s' := mkHs m' (set_ctx (hs_ctx s) i h') (hs_cpu s)). exists s'. split; [reflexivity|]. split; [reflexivity|]. pose proof HH as [HC0 CO0].
  assert (KEEP : forall x, In x (filter (fun x => negb ((al_heap x =? i) && (al_ptr x =? ba b0 + 64))) L) <-> In x L /\ ~ (al_heap x = i /\ al_ptr x = ba b0 + 64)).
  { intro x. rewrite filter_In, key_dec. reflexivity. }
  split.
  - constructor; [|exact (v_apart _ _ _ V)|apply nd_filter, (v_nd _ _ _ V)]. intro j. unfold s'. cbn [hs_mem hs_ctx]. destruct (N.eq_dec j i) as [->|NJ].
    + rewrite set_ctx_eq, EA. split; [rewrite SC4; exact VF|]. split; [exact P|]. split; [exact Q|]. replace (len <? 72) with false by lia. rewrite SC1, SC2. split; [exact E1|]. split; [exact E2|].
      exists B', F'. split; [exact HH'|]. destruct HL as [L1 L2]. split.
      * intros x Ix Ex. apply KEEP in Ix. destruct Ix as [Ix Nx]. destruct (L1 x Ix Ex) as (b & Ib & Ab & Px & R). exists b. split; [|auto]. apply BB; [exact Ab|]. split; [exact Ib|]. intros ->. auto.
      * intros b Ib Ab. apply BB in Ib; [|exact Ab]. destruct Ib as [Ib Nb]. destruct (L2 b Ib Ab) as (x & Ix & Ex & Px). exists x. split; [|auto]. apply KEEP. split; [exact Ix|].
        intros [_ K]. apply Nb. apply (tiles_fun _ _ _ _ _ (c_tiles _ _ _ _ _ HC0) Ib I0). lia.
    + rewrite set_ctx_ne by exact NJ. apply heap_live with (L := L).
      2:{ intros x Ex. rewrite KEEP. split; [tauto|]. intro Ix. split; [exact Ix|]. intros [K _]. congruence. }
      apply heap_frame with (m := hs_mem s); [apply (v_heap _ _ _ V)|]. intros w W1 W2. apply FR. apply (out_heap _ _ _ _ _ _ HC0). intro K.
      apply (in_arena_apart A i j w); [intros ? ? ? ? ? ?; eapply (v_apart _ _ _ V i j); eauto|rewrite EA; cbn; lia|exact W2].
  - intros x Ix c Hc. apply byte_word. unfold s'. cbn [hs_mem]. apply FR. destruct (data_word _ _ _ _ _ V Ix Hc) as [AR DW]. destruct (N.eq_dec (al_heap x) i) as [EX|NX].
    + rewrite EX in DW. destruct (DW B F HH HL) as (b & _ & _ & _ & _ & OB). exact OB.
    + apply (out_heap _ _ _ _ _ _ HC0). intro K.
      apply (in_arena_apart A i (al_heap x) (c / 8 * 8)); [intros ? ? ? ? ? ?; eapply (v_apart _ _ _ V i (al_heap x)); eauto|rewrite EA; cbn; lia|exact AR].
Qed.

(** ** The other calls *)
Lemma up8_le : forall x, x <= up8 x /\ up8 x < x + 8 /\ up8 x mod 8 = 0.
Proof. intro x. unfold up8. lia. Qed.
Lemma init_ok : forall m buf len, 0 < buf -> buf + len < 2 ^ 64 -> 72 <= len -> exists m' h' B F,
  heap_init m buf len = (m', h') /\ HI m' h' B F /\ hc_buf h' = up8 buf /\ hc_buf h' + hc_len h' = buf + len /\ hc_verify h' = 0 /\ (forall b, In b B -> bal b = false) /\
  (forall w, ~ (up8 buf <= w < buf + len) -> m' w = m w).
Proof.
  intros m buf len P Q L. unfold heap_init. replace (len <? HDR + ALIGN) with false by (unfold HDR, ALIGN; lia).
  set (off := if buf mod ALIGN =? 0 then 0 else ALIGN - buf mod ALIGN).
  assert (EO : buf + off = up8 buf) by (unfold off, up8, ALIGN; destruct (N.eqb_spec (buf mod 8) 0); lia). pose proof (up8_le buf) as (U1 & U2 & U3). clearbody off.
  assert (EW : wrap (buf + off) = up8 buf) by (rewrite EO; apply N.mod_small; lia). rewrite EW. clear EW. remember (up8 buf) as u eqn:Eu. clear Eu.
  assert (EL : len - off = buf + len - u) by lia. rewrite EL. clear EL EO off. remember (buf + len - u) as n eqn:En. assert (Hn : 64 < n) by lia. assert (HE : u + n = buf + len) by lia.
  set (m1 := zero m u n). set (m' := st (st (st m1 u SIZEf (n - HDR)) u MAGIC1f MAGIC1) u MAGIC2f MAGIC2).
  assert (SE : sep [u]) by (intros a b [<-|[]] [<-|[]]; auto). assert (IU : In u [u]) by (cbn; auto).
  pose proof (rep_st _ _ _ _ _ MAGIC2f MAGIC2 SE (rep_st _ _ _ _ _ MAGIC1f MAGIC1 SE (rep_st _ _ _ _ _ SIZEf (n - HDR) SE (rep0 [u] m1) IU eq_refl) IU eq_refl) IU eq_refl) as [R RF]. fold m' in R, RF.
  assert (Z : forall f, f < 8 -> ld m1 u f = 0).
  { intros f Hf. unfold ld, m1, zero. replace ((u <=? u + 8 * f) && (u + 8 * f <? u + n)) with true by lia. replace (u + 8 * f + 8 <=? u + n) with true by lia. reflexivity. }
  exists m', (mkCtx u n u u 0), [mkBlk u (n - 64) false], [u]. split; [reflexivity|]. cbn [hc_buf hc_len hc_verify]. split; [|split; [reflexivity|split; [exact HE|split; [reflexivity|split]]]].
  - split; [|exact Logic.I]. constructor; cbn [hc_buf hc_len hc_first hc_free].
    + reflexivity.
    + lia.
    + lia.
    + discriminate.
    + cbn [tiles ba bs]. split; [reflexivity|lia].
    + reflexivity.
    + constructor; [intros []|constructor].
    + intro a. cbn [In]. split.
      * intros [<-|[]]. split; [lia|]. eexists. split; [left; reflexivity|]. auto.
      * intros (_ & b & [<-|[]] & Eb & _). cbn in Eb. auto.
    + intros b [<-|[]]. apply hdr_lim_of. unfold hdr_ok. cbn [ba bs bal addrs map]. rewrite !R by (exact IU || reflexivity). fs. rewrite N.eqb_refl, !Z by reflexivity.
      unfold prev_of. cbn [prev_from next_of hd]. rewrite N.eqb_refl. repeat split.
    + intros b [<-|[]]. exact U3.
  - intros b [<-|[]]. reflexivity.
  - intros w W. rewrite RF.
    + unfold m1, zero. replace ((u <=? w) && (w <? u + n)) with false by lia. reflexivity.
    + intros a [<-|[]]. lia.
Qed.

Lemma keep_other : forall L i x, In x (filter (fun x => negb (al_heap x =? i)) L) <-> In x L /\ al_heap x <> i.
Proof. intros. rewrite filter_In. split; intros [H K]; (split; [exact H|lia]). Qed.
Lemma init_step : forall s L A p i buf len, inv s L A -> hs_cpu s p = Some i -> 0 < buf -> buf + len < 2 ^ 64 -> (forall j b n, j <> i -> A j = Some (b, n) -> apart buf len b n) ->
  exists s', hstep s (HInit p buf len) = Some (s', HNone) /\ hs_cpu s' = hs_cpu s /\ inv s' (live_after (Some i) (HInit p buf len) HNone L) (arenas_after (Some i) (HInit p buf len) A) /\
    forall x, In x L -> al_heap x <> i -> same_bytes s s' x.
Proof.
  intros s L A p i buf len V EP P Q AP. unfold hstep. rewrite EP. cbn [live_after arenas_after].
  assert (AP' : forall j k b n c l, j <> k -> (if j =? i then Some (buf, len) else A j) = Some (b, n) -> (if k =? i then Some (buf, len) else A k) = Some (c, l) -> apart b n c l).
  { intros j k b n c l NJ E1 E2. destruct (N.eqb_spec j i) as [->|N1], (N.eqb_spec k i) as [->|N2].
    - congruence.
    - injection E1 as <- <-. eapply AP; eassumption.
    - injection E2 as <- <-. specialize (AP j b n N1 E1). unfold apart in *. lia.
    - eapply (v_apart _ _ _ V j k); eassumption. }
  assert (NOL : forall x, In x (filter (fun x => negb (al_heap x =? i)) L) -> al_heap x <> i) by (intros x Ix; apply keep_other in Ix; tauto).
  destruct (N.ltb_spec len 72) as [K|K].
  - unfold heap_init. replace (len <? HDR + ALIGN) with true by (unfold HDR, ALIGN; lia). eexists. split; [reflexivity|]. split; [reflexivity|]. split; [|intros x _ _ c _; reflexivity].
    constructor; [|exact AP'|apply nd_filter, (v_nd _ _ _ V)]. intro j. cbn [hs_mem hs_ctx]. destruct (N.eqb_spec j i) as [->|NJ].
    + rewrite set_ctx_eq. split; [reflexivity|]. split; [exact P|]. split; [exact Q|]. replace (len <? 72) with true by lia. split; [reflexivity|]. split; [reflexivity|]. exact NOL.
    + rewrite set_ctx_ne by exact NJ. apply heap_live with (L := L); [apply (v_heap _ _ _ V)|]. intros x Ex. rewrite keep_other. split; [tauto|]. split; [assumption|congruence].
  - destruct (init_ok (hs_mem s) buf len P Q K) as (m' & h' & B & F & EI & HH & E1 & E2 & E3 & NB & FR). rewrite EI. eexists. split; [reflexivity|]. split; [reflexivity|]. split.
    + constructor; [|exact AP'|apply nd_filter, (v_nd _ _ _ V)]. intro j. cbn [hs_mem hs_ctx]. destruct (N.eqb_spec j i) as [->|NJ].
      * rewrite set_ctx_eq. split; [rewrite E3; reflexivity|]. split; [exact P|]. split; [exact Q|]. replace (len <? 72) with false by lia. split; [exact E1|]. split; [exact E2|]. exists B, F. split; [exact HH|]. split.
        -- intros x Ix Ex. destruct (NOL x Ix Ex).
        -- intros b Ib Ab. rewrite (NB b Ib) in Ab. discriminate.
      * rewrite set_ctx_ne by exact NJ. apply heap_live with (L := L); [|intros x Ex; rewrite keep_other; split; [tauto|]; split; [assumption|congruence]].
        apply heap_frame with (m := hs_mem s); [apply (v_heap _ _ _ V)|]. intros w W1 W2. apply FR. intro W3. destruct (A j) as [[b n]|] eqn:EJ; [|exact W2]. specialize (AP j b n NJ EJ). cbn in W2. unfold apart, up8 in *. lia.
    + intros x Ix NX c Hc. apply byte_word. cbn [hs_mem]. apply FR. intro W3. destruct (data_word _ _ _ _ _ V Ix Hc) as [AR _]. destruct (A (al_heap x)) as [[b n]|] eqn:EJ; [|exact AR].
      specialize (AP _ b n NX EJ). cbn in AR. unfold apart, up8 in *. lia.
Qed.
Lemma drop_step : forall s L A p i, inv s L A -> hs_cpu s p = Some i ->
  exists s', hstep s (HDrop p) = Some (s', HNone) /\ hs_cpu s' = hs_cpu s /\ inv s' (live_after (Some i) (HDrop p) HNone L) (arenas_after (Some i) (HDrop p) A) /\ hs_mem s' = hs_mem s.
Proof.
  intros s L A p i V EP. unfold hstep. rewrite EP. cbn [live_after arenas_after]. eexists. split; [reflexivity|]. split; [reflexivity|]. split; [|reflexivity].
  constructor; [| |apply nd_filter, (v_nd _ _ _ V)].
  - intro j. cbn [hs_mem hs_ctx]. destruct (N.eqb_spec j i) as [->|NJ].
    + rewrite set_ctx_eq. split; [reflexivity|]. split; [reflexivity|]. split; [reflexivity|]. intros x Ix. apply keep_other in Ix. tauto.
    + rewrite set_ctx_ne by exact NJ. apply heap_live with (L := L); [apply (v_heap _ _ _ V)|]. intros x Ex. rewrite keep_other. split; [tauto|]. split; [assumption|congruence].
  - intros j k b n c l NJ E1 E2. destruct (N.eqb_spec j i), (N.eqb_spec k i); try discriminate. eapply (v_apart _ _ _ V j k); eassumption.
Qed.
Lemma verify_bit : forall v, v mod 4 < 2 -> N.land (v mod 2 ^ 32) VERIFY_FREE = 0.
Proof.
  intros v H. apply N.bits_inj. intro i. rewrite N.land_spec, N.bits_0. unfold VERIFY_FREE. destruct (N.eq_dec i 1) as [->|NI].
  - rewrite N.mod_pow2_bits_low by reflexivity. rewrite <- (N.mod_pow2_bits_low v 2 1) by reflexivity. change (2 ^ 2) with 4. assert (v mod 4 = 0 \/ v mod 4 = 1) as [-> | ->] by lia; reflexivity.
  - change 2 with (2 ^ 1). rewrite N.pow2_bits_false by congruence. apply andb_false_r.
Qed.
Lemma setv_step : forall s L A p i v, inv s L A -> hs_cpu s p = Some i -> v mod 4 < 2 ->
  exists s', hstep s (HSetVerify p v) = Some (s', HNone) /\ hs_cpu s' = hs_cpu s /\ inv s' L A /\ hs_mem s' = hs_mem s.
Proof.
  intros s L A p i v V EP HV. unfold hstep. rewrite EP. eexists. split; [reflexivity|]. split; [reflexivity|]. split; [|reflexivity].
  constructor; [|exact (v_apart _ _ _ V)|exact (v_nd _ _ _ V)]. intro j. cbn [hs_mem hs_ctx]. destruct (N.eq_dec j i) as [->|NJ]; [|rewrite set_ctx_ne by exact NJ; apply (v_heap _ _ _ V)].
  rewrite set_ctx_eq. destruct (v_heap _ _ _ V i) as [_ HO]. split; [cbn; apply verify_bit, HV|]. destruct (A i) as [[buf len]|]; [|exact HO]. destruct HO as (P & Q & HO). split; [exact P|]. split; [exact Q|].
  destruct (len <? 72); [exact HO|]. destruct HO as (E1 & E2 & B & F & [HH CO] & HL). split; [exact E1|]. split; [exact E2|]. exists B, F. split; [|exact HL]. split; [|exact CO].
  eapply HC_ctx; [exact HH|reflexivity|reflexivity|reflexivity|reflexivity].
Qed.
Lemma write_step : forall s L A a v x, inv s L A -> In x L -> al_ptr x <= a < al_ptr x + al_len x ->
  exists s', hstep s (HWrite a v) = Some (s', HNone) /\ hs_cpu s' = hs_cpu s /\ inv s' L A /\ hs_mem s' = put_byte (hs_mem s) a v.
Proof.
  intros s L A a v x V Ix Ha. cbn [hstep]. eexists. split; [reflexivity|]. split; [reflexivity|]. split; [|reflexivity].
  constructor; [|exact (v_apart _ _ _ V)|exact (v_nd _ _ _ V)]. intro j. cbn [hs_mem hs_ctx]. destruct (data_word _ _ _ _ _ V Ix Ha) as [AR DW].
  destruct (N.eq_dec j (al_heap x)) as [->|NJ].
  - destruct (v_heap _ _ _ V (al_heap x)) as [VF HO]. split; [exact VF|]. destruct (A (al_heap x)) as [[buf len]|]; [|exact HO]. destruct HO as (P & Q & HO). split; [exact P|]. split; [exact Q|].
    destruct (len <? 72); [exact HO|]. destruct HO as (E1 & E2 & B & F & HH & HL). split; [exact E1|]. split; [exact E2|]. exists B, F. split; [|exact HL].
    destruct (DW B F HH HL) as (b & Ib & _ & _ & _ & OB). destruct HH as [HC0 CO]. split; [|exact CO]. eapply HC_frame; [exact HC0|]. intros c f Ic Hf. specialize (OB c Ic). unfold ld, put_byte, put.
    destruct (N.eqb_spec (c + 8 * f) (a / 8 * 8)) as [EW|]; [|reflexivity]. exfalso. rewrite <- EW in OB. clear - OB Hf. lia.
  - apply heap_frame with (m := hs_mem s); [apply (v_heap _ _ _ V)|]. intros w W1 W2. unfold put_byte, put. destruct (N.eqb_spec w (a / 8 * 8)) as [->|]; [|reflexivity].
    exfalso. apply (in_arena_apart A j (al_heap x) (a / 8 * 8)); [intros ? ? ? ? ? ?; eapply (v_apart _ _ _ V j (al_heap x)); eauto|exact W2|exact AR].
Qed.
Lemma verify_step : forall s L A p i, inv s L A -> hs_cpu s p = Some i ->
  exists b, hstep s (HVerify p) = Some (s, HGood b) /\ forall buf len, A i = Some (buf, len) -> 72 <= len -> b = true.
Proof.
  intros s L A p i V EP. unfold hstep. rewrite EP. destruct (v_heap _ _ _ V i) as [_ HO].
  assert (NO : hc_first (hs_ctx s i) = 0 -> verify_chain (hs_mem s) (hs_ctx s i) = Some false) by (intro Z; unfold verify_chain; rewrite Z; reflexivity).
  destruct (A i) as [[buf len]|].
  - destruct HO as (P & Q & HO). destruct (N.ltb_spec len 72) as [K|K].
    + rewrite NO by exact (proj1 (proj2 HO)). exists false. split; [reflexivity|]. intros b n E. injection E as <- <-. lia.
    + destruct HO as (_ & _ & B & F & [HH _] & _). rewrite (HC_verify _ _ _ _ HH). exists true. auto.
  - rewrite NO by exact (proj1 (proj2 HO)). exists false. split; [reflexivity|]. discriminate.
Qed.

(** ** Histories *)
Lemma step_ok : forall s L A o, inv s L A -> legal s L A o -> exists s' rp, hstep s o = Some (s', rp) /\ inv s' (live_after (on_cpu s o) o rp L) (arenas_after (on_cpu s o) o A).
Proof.
  intros s L A o V LG. destruct o as [p i|p|p buf len|p|p n size|p ptr|p v|p|a v]; cbn [legal on_cpu] in *.
  - cbn [hstep]. destruct (hs_cpu s p); (eexists _, _; split; [reflexivity|]); cbn [live_after arenas_after]; apply (inv_ext s); auto.
  - destruct LG as [i EP]. cbn [hstep]. rewrite EP. eexists _, _. split; [reflexivity|]. apply (inv_ext s); auto.
  - destruct LG as (i & EP & P & Q & AP). destruct (init_step _ _ _ _ _ _ _ V EP P Q AP) as (s' & E & _ & V' & _). rewrite EP. eauto.
  - destruct LG as [i EP]. destruct (drop_step _ _ _ _ _ V EP) as (s' & E & _ & V' & _). rewrite EP. eauto.
  - destruct LG as ([i EP] & Hn & Hs). destruct (calloc_step _ _ _ _ _ _ _ V EP Hn Hs) as (s' & a & E & _ & C). rewrite EP. exists s', (HPtr a). split; [exact E|]. cbn [live_after arenas_after].
    destruct C as [(-> & E1 & E2 & _)|(Za & _ & V' & _)]; [apply (inv_ext s); assumption|]. rewrite (proj2 (N.eqb_neq _ _) Za). exact V'.
  - destruct LG as (i & EP & HP). destruct (free_step _ _ _ _ _ _ V EP HP) as (s' & E & _ & V' & _). rewrite EP. eauto.
  - destruct LG as [[i EP] HV]. destruct (setv_step _ _ _ _ _ _ V EP HV) as (s' & E & _ & V' & _). eauto.
  - destruct LG as [i EP]. destruct (verify_step _ _ _ _ _ V EP) as (b & E & _). eauto.
  - destruct LG as (x & Ix & Ha). destruct (write_step _ _ _ _ v _ V Ix Ha) as (s' & E & _ & V' & _). eauto.
Qed.
Lemma history_inv : forall s L A, history s L A -> inv s L A.
Proof.
  intros s L A H. induction H as [m|s L A o s' rp H IH LG E].
  - constructor; [|discriminate|constructor]. intro i. split; [reflexivity|]. cbn. split; [reflexivity|]. split; [reflexivity|]. intros x [].
  - destruct (step_ok _ _ _ _ IH LG) as (s2 & rp2 & E2 & V). rewrite E in E2. injection E2 as <- <-. exact V.
Qed.

(** ** The theorems *)
Lemma inv_distinct : forall s L A, inv s L A -> ForallOrdPairs (fun x y => apart (al_ptr x) (al_len x) (al_ptr y) (al_len y)) L.
Proof.
  intros s L A V. pose proof (inv_pair s L A) as PR. pose proof (v_nd _ _ _ V) as ND. assert (SUB : forall x, In x L -> In x L) by auto. revert SUB ND. generalize L at 1 3 4 as M. induction M as [|x M IH]; intros SUB ND; [constructor|].
  cbn [map] in ND. inversion ND; subst. constructor; [|apply IH; [intros; apply SUB; cbn; auto|assumption]]. apply Forall_forall. intros y Iy.
  assert (K : key x <> key y) by (intro K; apply H1; rewrite K; apply in_map, Iy). specialize (PR x y V (SUB x (or_introl eq_refl)) (SUB y (or_intror Iy)) K).
  destruct (inv_place _ _ _ _ V (SUB x (or_introl eq_refl))) as (b1 & l1 & _ & _ & X1 & _). destruct (inv_place _ _ _ _ V (SUB y (or_intror Iy))) as (b2 & l2 & _ & _ & X2 & _). unfold apart in *. lia.
Qed.

Lemma keeps : forall s L A o s' rp x c, inv s L A -> legal s L A o -> hstep s o = Some (s', rp) -> In x L -> In x (live_after (on_cpu s o) o rp L) ->
  al_ptr x <= c < al_ptr x + al_len x -> byte (hs_mem s') c = match o with HWrite a v => if c =? a then v mod 256 else byte (hs_mem s) c | _ => byte (hs_mem s) c end.
Proof.
  intros s L A o s' rp x c V LG E Ix Ix' Hc. destruct o as [p i|p|p buf len|p|p n size|p ptr|p v|p|a v]; cbn [legal on_cpu] in *.
  - cbn [hstep] in E. destruct (hs_cpu s p); injection E as <- <-; reflexivity.
  - cbn [hstep] in E. destruct (hs_cpu s p); [injection E as <- <-; reflexivity|discriminate].
  - destruct LG as (i & EP & P & Q & AP). destruct (init_step _ _ _ _ _ _ _ V EP P Q AP) as (s2 & E2 & _ & _ & K). rewrite E in E2. injection E2 as <- ->. rewrite EP in Ix'. cbn [live_after] in Ix'. apply keep_other in Ix'.
    apply (K x Ix (proj2 Ix')), Hc.
  - destruct LG as [i EP]. destruct (drop_step _ _ _ _ _ V EP) as (s2 & E2 & _ & _ & K). rewrite E in E2. injection E2 as <- ->. rewrite K. reflexivity.
  - destruct LG as ([i EP] & Hn & Hs). destruct (calloc_step _ _ _ _ _ _ _ V EP Hn Hs) as (s2 & a & E2 & _ & C). rewrite E in E2. injection E2 as <- ->.
    destruct C as [(_ & K & _)|(_ & _ & _ & _ & K)]; [rewrite K; reflexivity|]. apply (K x Ix), Hc.
  - destruct LG as (i & EP & HP). destruct (free_step _ _ _ _ _ _ V EP HP) as (s2 & E2 & _ & _ & K). rewrite E in E2. injection E2 as <- ->. apply (K x Ix), Hc.
  - destruct LG as [[i EP] HV]. destruct (setv_step _ _ _ _ _ _ V EP HV) as (s2 & E2 & _ & _ & K). rewrite E in E2. injection E2 as <- ->. rewrite K. reflexivity.
  - destruct LG as [i EP]. destruct (verify_step _ _ _ _ _ V EP) as (b & E2 & _). rewrite E in E2. injection E2 as <- ->. reflexivity.
  - cbn [hstep] in E. injection E as <- <-. cbn [hs_mem]. apply byte_put.
Qed.

(** A range without allocations is in one free block *)
Lemma tile_at : forall B s e g, tiles B s e -> s <= g < e -> exists B1 b B2, B = B1 ++ b :: B2 /\ ba b <= g < ba b + 64 + bs b.
Proof.
  induction B as [|b B IH]; intros s e g T H; cbn [tiles] in T; [lia|]. destruct T as [E T]. destruct (N.lt_ge_cases g (s + 64 + bs b)) as [K|K].
  - exists [], b, B. split; [reflexivity|lia].
  - destruct (IH _ _ g T) as (B1 & c & B2 & EB & R); [lia|]. exists (b :: B1), c, B2. rewrite EB. split; [reflexivity|exact R].
Qed.
Lemma room : forall m h B F L i g k, HI m h B F -> lives B L i -> hc_buf h <= g -> g + k <= hc_buf h + hc_len h -> 0 < k ->
  (forall x, In x L -> al_heap x = i -> apart g k (al_ptr x - 64) (64 + up8 (al_len x) + 71)) -> exists b, In b B /\ bal b = false /\ k <= 64 + bs b.
Proof.
  intros m h B F L i g k [H CO] [L1 L2] G1 G2 K NA. pose proof (c_tiles _ _ _ _ _ H) as T.
  assert (FREE : forall b, In b B -> bal b = true -> apart g k (ba b) (64 + bs b)).
  { intros b Ib Ab. destruct (L2 b Ib Ab) as (x & Ix & Ex & Px). specialize (NA x Ix Ex). destruct (L1 x Ix Ex) as (c & Ic & Ac & Pc & _ & Sc).
    assert (c = b) by (apply (tiles_fun _ _ _ _ _ T Ic Ib); lia). subst c. unfold apart in *. lia. }
  destruct (tile_at _ _ _ g T) as (B1 & b & B2 & EB & R); [lia|]. assert (Ib : In b B) by (rewrite EB; apply mid_cases; auto).
  destruct (bal b) eqn:Ab; [exfalso; specialize (FREE b Ib Ab); unfold apart in FREE; lia|]. exists b. split; [exact Ib|]. split; [exact Ab|].
  destruct (N.lt_ge_cases (64 + bs b) k) as [LT|GE]; [exfalso|exact GE].
  destruct B2 as [|c B2].
  - rewrite EB, tiles_app in T. destruct T as (z & _ & T). cbn [tiles] in T. lia.
  - assert (Ic : In c B) by (rewrite EB, in_app_iff; cbn; auto). rewrite EB, tiles_app in T. destruct T as (z & _ & T). cbn [tiles] in T. destruct T as (T1 & T2 & T3).
    rewrite EB, coal_app, coal_cons in CO. destruct CO as (_ & (CO & _) & _). cbn [map hd] in CO. destruct CO as [CO|CO]; [congruence|].
    specialize (FREE c Ic CO). unfold apart in FREE. lia.
Qed.

Lemma room_step : forall s L A p i n size buf len g k s' a, inv s L A -> hs_cpu s p = Some i -> n < 2 ^ 64 -> size < 2 ^ 64 -> set_up A i buf len -> 0 < n * size <= 2 ^ 64 - 8 ->
  up8 buf <= g -> g + k <= buf + len -> 64 + up8 (n * size) <= k -> (forall x, In x L -> al_heap x = i -> apart g k (al_ptr x - 64) (64 + up8 (al_len x) + 71)) ->
  hstep s (HCalloc p n size) = Some (s', HPtr a) -> a <> 0.
Proof.
  intros s L A p i n size buf len g k s' a V EP Hn Hs [EA LL] PK G1 G2 K NA E. destruct (calloc_step _ _ _ _ _ _ _ V EP Hn Hs) as (s2 & a2 & E2 & _ & C). rewrite E in E2. injection E2 as <- <-.
  destruct C as [(_ & _ & _ & W)|(Z & _)]; [|exact Z]. destruct (W _ _ EA LL PK) as (B & F & HH & HL & E1 & E3 & NB).
  destruct (room _ _ _ _ _ _ g k HH HL) as (b & Ib & Fb & Sb); [lia|lia|lia|exact NA|]. specialize (NB b Ib Fb). lia.
Qed.

(** With the check of line 356 switched on, no allocation can be freed *)
Lemma free_checked : forall s L A p i ptr n v, inv s L A -> hs_cpu s p = Some i -> In (mkAlloc i ptr n) L -> N.land (v mod 2 ^ 32) VERIFY_FREE <> 0 ->
  hstep (mkHs (hs_mem s) (set_ctx (hs_ctx s) i (set_verify (hs_ctx s i) (v mod 2 ^ 32))) (hs_cpu s)) (HFree p ptr) = None.
Proof.
  intros s L A p i ptr n v V EP In_ HV. destruct (inv_block _ _ _ _ V In_) as (buf & len & B & F & b0 & EA & LL & P & Q & E1 & E2 & [HC0 CO] & HL & I0 & A0 & Pb & Sb). cbn [al_heap al_ptr al_len] in *.
  unfold hstep. cbn [hs_cpu hs_ctx hs_mem]. rewrite EP, set_ctx_eq, Pb.
  assert (HH : HI (hs_mem s) (set_verify (hs_ctx s i) (v mod 2 ^ 32)) B F) by (split; [eapply HC_ctx; [exact HC0|reflexivity|reflexivity|reflexivity|reflexivity]|exact CO]).
  destruct (free_core _ _ _ _ b0 HH I0 A0) as (m' & h' & B' & F' & EF & _); [lia|]. rewrite EF. cbn [hc_verify set_verify]. rewrite (proj2 (N.eqb_neq _ _) HV). reflexivity.
Qed.

(** A heap without allocations is one free block *)
Lemma restored_step : forall s L A p i n size buf len s' a, inv s L A -> hs_cpu s p = Some i -> n < 2 ^ 64 -> size < 2 ^ 64 -> set_up A i buf len -> (forall x, In x L -> al_heap x <> i) ->
  hstep s (HCalloc p n size) = Some (s', HPtr a) -> a = if (n * size =? 0) || (buf + len <? up8 buf + 64 + up8 (n * size)) then 0 else up8 buf + 64.
Proof.
  intros s L A p i n size buf len s' a V EP Hn Hs [EA LL] NL E. destruct (v_heap _ _ _ V i) as [_ HO]. rewrite EA in HO. destruct HO as (P & Q & HO). replace (len <? 72) with false in HO by lia.
  destruct HO as (E1 & E2 & B & F & HH & L1 & L2). pose proof HH as [H CO]. pose proof (c_tiles _ _ _ _ _ H) as T.
  assert (ALL : forall b, In b B -> bal b = false) by (intros b Ib; destruct (bal b) eqn:Ab; [|reflexivity]; destruct (L2 b Ib Ab) as (x & Ix & Ex & _); destruct (NL x Ix Ex)).
  assert (ONE : exists b0, B = [b0]).
  { destruct B as [|b0 [|b1 B]]; [destruct (c_ne _ _ _ _ _ H eq_refl)|eauto|]. exfalso. cbn [coal] in CO. destruct CO as [CO _]. rewrite (ALL b0), (ALL b1) in CO by (cbn; auto). destruct CO; discriminate. }
  destruct ONE as (b0 & ->). cbn [tiles] in T. destruct T as [T1 T2]. unfold hstep in E. rewrite EP in E.
  destruct (calloc_spec _ _ _ _ n size HH Hn Hs) as [[EC WHY]|(PK & m' & h' & B' & F' & b & sz & EC & TK)]; rewrite EC in E; injection E as <- <-.
  - destruct WHY as [W|[W|W]].
    + rewrite W. reflexivity.
    + replace (buf + len <? up8 buf + 64 + up8 (n * size)) with true; [rewrite orb_true_r; reflexivity|]. unfold up8 at 2. symmetry. apply N.ltb_lt. clear - W Q. remember (n * size) as k. remember (up8 buf) as u. lia.
    + specialize (W b0 (or_introl eq_refl) (ALL b0 (or_introl eq_refl))). replace (buf + len <? up8 buf + 64 + up8 (n * size)) with true; [rewrite orb_true_r; reflexivity|]. lia.
  - destruct TK as ([<-|[]] & _ & _ & _ & S1 & _ & S3 & _). replace ((n * size =? 0) || (buf + len <? up8 buf + 64 + up8 (n * size))) with false by lia. lia.
Qed.
