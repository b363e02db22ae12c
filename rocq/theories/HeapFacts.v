(** The heap is a sequence of blocks, free or allocated, that fill the buffer; the headers
    hold two linked lists, of all blocks and of the free ones. *)
From Coq Require Import NArith ZArith List Bool Lia ZifyBool ZifyN.
From Verif Require Import Heap SpecHeap HeapList.
Import ListNotations.
Local Open Scope N_scope.
Ltac Zify.zify_post_hook ::= Z.div_mod_to_equations.

(** ** Lists, for every address *)
Section All.
  Variables (l1 l2 : list N) (c : N).
  Let l := l1 ++ c :: l2.
  Hypothesis ND : NoDup l.
  Hypothesis NZ : ~ In 0 l.
  Lemma mid_in : In c l.
  Proof using. unfold l. rewrite in_app_iff. cbn. auto. Qed.
  Lemma in_rem : forall b, b <> c -> (In b (l1 ++ l2) <-> In b l).
  Proof using. intros b N. unfold l. rewrite !in_app_iff. cbn. split; [tauto|]. intros [H|[H|H]]; auto; congruence. Qed.
  Lemma rem_next' : forall b, b <> 0 -> b <> c -> next_of (l1 ++ l2) b = if b =? prev_of l c then next_of l c else next_of l b.
  Proof using ND NZ.
    intros b Zb Nb. destruct (in_dec N.eq_dec b l) as [I|I]; [apply rem_next; assumption|].
    rewrite (next_notin (l1 ++ l2) b), (next_notin l b); try assumption; [|rewrite in_rem by exact Nb; exact I].
    destruct (N.eqb_spec b (prev_of l c)) as [E|_]; [|reflexivity]. exfalso. apply I. rewrite E. apply prev_in. rewrite <- E. exact Zb.
  Qed.
  Lemma rem_prev' : forall b, b <> 0 -> b <> c -> prev_of (l1 ++ l2) b = if b =? next_of l c then prev_of l c else prev_of l b.
  Proof using ND NZ.
    intros b Zb Nb. destruct (in_dec N.eq_dec b l) as [I|I]; [apply rem_prev; assumption|].
    rewrite (prev_notin (l1 ++ l2) b), (prev_notin l b); try assumption; [|rewrite in_rem by exact Nb; exact I].
    destruct (N.eqb_spec b (next_of l c)) as [E|_]; [|reflexivity]. exfalso. apply I. rewrite E. apply next_in. rewrite <- E. exact Zb.
  Qed.
  Variable n : N.
  Hypothesis Nn : ~ In n l.
  Hypothesis Zn : n <> 0.
  Lemma rep_next' : forall b, b <> 0 -> b <> c -> b <> n -> next_of (l1 ++ n :: l2) b = if b =? prev_of l c then n else next_of l b.
  Proof using ND NZ Nn Zn.
    intros b Zb Nb Nb'. destruct (in_dec N.eq_dec b l) as [I|I]; [apply rep_next; assumption|].
    rewrite (next_notin (l1 ++ n :: l2) b), (next_notin l b); try assumption; [|unfold l in I; rewrite in_app_iff in *; cbn in *; intuition congruence].
    destruct (N.eqb_spec b (prev_of l c)) as [E|_]; [|reflexivity]. exfalso. apply I. rewrite E. apply prev_in. rewrite <- E. exact Zb.
  Qed.
  Lemma rep_prev' : forall b, b <> 0 -> b <> c -> b <> n -> prev_of (l1 ++ n :: l2) b = if b =? next_of l c then n else prev_of l b.
  Proof using ND NZ Nn Zn.
    intros b Zb Nb Nb'. destruct (in_dec N.eq_dec b l) as [I|I]; [apply rep_prev; assumption|].
    rewrite (prev_notin (l1 ++ n :: l2) b), (prev_notin l b); try assumption; [|unfold l in I; rewrite in_app_iff in *; cbn in *; intuition congruence].
    destruct (N.eqb_spec b (next_of l c)) as [E|_]; [|reflexivity]. exfalso. apply I. rewrite E. apply next_in. rewrite <- E. exact Zb.
  Qed.
  Lemma prev_ne_next : prev_of l c <> 0 -> prev_of l c <> next_of l c.
  Proof using ND NZ.
    intros Z E. unfold l in *. rewrite l_prev in * by assumption. rewrite l_next in * by assumption.
    assert (L1 : l1 <> []) by (intro K; rewrite K in Z; apply Z; reflexivity).
    apply (l_12 _ _ _ ND (last l1 0)); [apply last_in, L1|]. rewrite E. apply hd_nz. rewrite <- E. exact Z.
  Qed.
  Lemma prev_ne : prev_of l c <> c.
  Proof using ND NZ.
    intro E. assert (Z : c <> 0) by (intro K; apply NZ; rewrite <- K; apply mid_in). unfold l in *. rewrite l_prev in E by assumption.
    apply (l_c1 _ _ _ ND). rewrite <- E at 1. apply last_in. intro K. rewrite K in E. cbn in E. congruence.
  Qed.
  Lemma next_ne : next_of l c <> c.
  Proof using ND NZ.
    intro E. assert (Z : c <> 0) by (intro K; apply NZ; rewrite <- K; apply mid_in). unfold l in *. rewrite l_next in E by assumption.
    apply (l_c2 _ _ _ ND). rewrite <- E at 1. apply hd_nz. congruence.
  Qed.
End All.

(** ** Views of the headers *)
Definition view := N -> N -> N.
Definition vput (V : view) (a f v : N) : view := fun b g => if (b =? a) && (g =? f) then v else V b g.
Definition sep (U : list N) : Prop := forall a b, In a U -> In b U -> a = b \/ a + 64 <= b \/ b + 64 <= a.
Definition outside (U : list N) (w : N) : Prop := forall a, In a U -> w < a \/ a + 64 <= w.
Definition rep (U : list N) (m0 m : words) (V : view) : Prop :=
  (forall b f, In b U -> f < 8 -> ld m b f = V b f) /\ (forall w, outside U w -> m w = m0 w).

Lemma rep0 : forall U m, rep U m m (ld m).
Proof. split; auto. Qed.
Lemma rep_st : forall U m0 m V a f v, sep U -> rep U m0 m V -> In a U -> f < 8 -> rep U m0 (st m a f v) (vput V a f v).
Proof.
  intros U m0 m V a f v SE [R1 R2] Ia Hf. split.
  - intros b g Ib Hg. unfold ld, st, put, vput. specialize (R1 b g Ib Hg). unfold ld in R1. rewrite <- R1. specialize (SE a b Ia Ib).
    destruct (N.eqb_spec (b + 8 * g) (a + 8 * f)) as [E|E].
    + assert (b = a /\ g = f) as [-> ->] by lia. rewrite !N.eqb_refl. reflexivity.
    + destruct (N.eqb_spec b a) as [->|]; [|reflexivity]. destruct (N.eqb_spec g f) as [->|]; [congruence|reflexivity].
  - intros w O. unfold st, put. destruct (N.eqb_spec w (a + 8 * f)) as [->|]; [|apply R2, O]. specialize (O a Ia). lia.
Qed.
Lemma rep_if : forall U m0 m V a f v, sep U -> ~ In 0 U -> rep U m0 m V -> a = 0 \/ In a U -> f < 8 -> rep U m0 (st_if m a f v) (vput V a f v).
Proof.
  intros U m0 m V a f v SE NZ R Ia Hf. unfold st_if. destruct (N.eqb_spec a 0) as [->|Z].
  - destruct R as [R1 R2]. split; [|exact R2]. intros b g Ib Hg. unfold vput. destruct (N.eqb_spec b 0) as [->|]; [contradiction|]. apply R1; assumption.
  - apply rep_st; auto. destruct Ia; [contradiction|assumption].
Qed.
(** A header that goes *)
Lemma rep_zero : forall U U' m0 m V a, sep U -> rep U m0 m V -> In a U -> (forall b, In b U' -> In b U /\ b <> a) ->
  (forall b f, In b U' -> f < 8 -> ld (zero m a 64) b f = V b f) /\ (forall w, outside U w -> zero m a 64 w = m0 w).
Proof.
  intros U U' m0 m V a SE [R1 R2] Ia HU. split.
  - intros b f Ib Hf. destruct (HU b Ib) as [Ib' NE]. rewrite <- R1 by assumption. unfold ld, zero. destruct (SE a b Ia Ib') as [K|K]; [congruence|].
    replace ((a <=? b + 8 * f) && (b + 8 * f <? a + 64)) with false by lia. reflexivity.
  - intros w O. unfold zero. pose proof (O a Ia). replace ((a <=? w) && (w <? a + 64)) with false by lia. apply R2, O.
Qed.

(** ** Blocks *)
Record blk := mkBlk { ba : N; bs : N; bal : bool }.
Definition addrs := map ba.
Fixpoint tiles (B : list blk) (s e : N) : Prop := match B with [] => s = e | b :: t => ba b = s /\ tiles t (s + 64 + bs b) e end.
Lemma tiles_app : forall B1 B2 s e, tiles (B1 ++ B2) s e <-> exists c, tiles B1 s c /\ tiles B2 c e.
Proof.
  induction B1 as [|b B1 IH]; intros B2 s e; cbn [app tiles].
  - split; [eauto|]. intros (c & -> & H). exact H.
  - rewrite IH. split; [intros (E & c & H1 & H2); eauto|intros (c & (E & H1) & H2); eauto].
Qed.
Lemma tiles_len : forall B s e, tiles B s e -> s + 64 * N.of_nat (length B) <= e.
Proof. induction B as [|b B IH]; intros s e H; cbn [tiles length] in *; [lia|]. destruct H as [E H]. apply IH in H. lia. Qed.
Lemma tiles_in : forall B s e b, tiles B s e -> In b B -> s <= ba b /\ ba b + 64 + bs b <= e.
Proof.
  induction B as [|x B IH]; intros s e b H I; [destruct I|]. cbn [tiles] in H. destruct H as [E H]. destruct I as [->|I].
  - apply tiles_len in H. lia.
  - specialize (IH _ _ _ H I). lia.
Qed.
Lemma tiles_two : forall B s e b c, tiles B s e -> In b B -> In c B -> b = c \/ ba b + 64 + bs b <= ba c \/ ba c + 64 + bs c <= ba b.
Proof.
  induction B as [|x B IH]; intros s e b c H I J; [destruct I|]. cbn [tiles] in H. destruct H as [E H]. destruct I as [->|I], J as [->|J]; auto.
  - pose proof (tiles_in _ _ _ _ H J). lia.
  - pose proof (tiles_in _ _ _ _ H I). lia.
  - eapply IH; eassumption.
Qed.
Lemma addr_in : forall B a, In a (addrs B) <-> exists b, In b B /\ ba b = a.
Proof. intros B a. unfold addrs. rewrite in_map_iff. firstorder. Qed.
Lemma in_addr : forall B b, In b B -> In (ba b) (addrs B).
Proof. intros. apply in_map. assumption. Qed.
Lemma tiles_fun : forall B s e b c, tiles B s e -> In b B -> In c B -> ba b = ba c -> b = c.
Proof. intros B s e b c H I J E. destruct (tiles_two _ _ _ _ _ H I J) as [K|K]; [exact K|lia]. Qed.
Lemma tiles_sep : forall B s e, tiles B s e -> sep (addrs B).
Proof.
  intros B s e H a c Ia Ic. apply addr_in in Ia, Ic. destruct Ia as (b & Ib & <-), Ic as (b' & Ib' & <-).
  destruct (tiles_two _ _ _ _ _ H Ib Ib') as [->|K]; [auto|lia].
Qed.
Lemma tiles_nd : forall B s e, tiles B s e -> NoDup (addrs B).
Proof.
  induction B as [|b B IH]; intros s e H; cbn [addrs map] in *; [constructor|]. destruct H as [E H]. constructor; [|eapply IH; exact H].
  intro I. apply addr_in in I. destruct I as (c & I & E'). pose proof (tiles_in _ _ _ _ H I). lia.
Qed.
Lemma tiles_nz : forall B s e, tiles B s e -> 0 < s -> ~ In 0 (addrs B).
Proof. intros B s e H P I. apply addr_in in I. destruct I as (b & I & E). pose proof (tiles_in _ _ _ _ H I). lia. Qed.

Definition hdr_ok (V : view) (A F : list N) (b : blk) : Prop :=
  V (ba b) 0 = MAGIC1 /\ V (ba b) 1 = bs b /\ V (ba b) 2 = (if bal b then 1 else 0) /\ V (ba b) 3 = prev_of A (ba b) /\ V (ba b) 4 = next_of A (ba b) /\
  V (ba b) 5 = prev_of F (ba b) /\ V (ba b) 6 = next_of F (ba b) /\ V (ba b) 7 = MAGIC2.

(** The same without the links of the free list for the block [lim] *)
Definition hdr_lim (V : view) (A F : list N) (lim : N) (b : blk) : Prop :=
  V (ba b) 0 = MAGIC1 /\ V (ba b) 1 = bs b /\ V (ba b) 2 = (if bal b then 1 else 0) /\ V (ba b) 3 = prev_of A (ba b) /\ V (ba b) 4 = next_of A (ba b) /\
  V (ba b) 7 = MAGIC2 /\ (ba b <> lim -> V (ba b) 5 = prev_of F (ba b) /\ V (ba b) 6 = next_of F (ba b)).
Lemma hdr_lim_of : forall V A F lim b, hdr_ok V A F b -> hdr_lim V A F lim b.
Proof. intros V A F lim b (H0 & H1 & H2 & H3 & H4 & H5 & H6 & H7). repeat split; assumption. Qed.

(** [lim]: a free block that is not yet in the list of free blocks *)
Record HC (m : words) (h : hctx) (B : list blk) (F : list N) (lim : N) : Prop := mkHC {
  c_first : hc_first h = hc_buf h;
  c_pos : 0 < hc_buf h;
  c_end : hc_buf h + hc_len h < 2 ^ 64;
  c_ne : B <> [];
  c_tiles : tiles B (hc_buf h) (hc_buf h + hc_len h);
  c_free : hc_free h = hd 0 F;
  c_nd : NoDup F;
  c_in : forall a, In a F <-> a <> lim /\ exists b, In b B /\ ba b = a /\ bal b = false;
  c_hdr : forall b, In b B -> hdr_lim (ld m) (addrs B) F lim b;
  c_mod : forall b, In b B -> ba b mod 8 = 0
}.
Fixpoint coal (B : list blk) : Prop := match B with x :: (y :: _) as t => (bal x = true \/ bal y = true) /\ coal t | _ => True end.
Definition HI m h B F : Prop := HC m h B F 0 /\ coal B.

Lemma HC_fnz : forall m h B F lim, HC m h B F lim -> ~ In 0 F.
Proof. intros m h B F lim H I. apply (c_in _ _ _ _ _ H) in I. destruct I as (_ & b & I & E & _). apply (tiles_nz _ _ _ (c_tiles _ _ _ _ _ H) (c_pos _ _ _ _ _ H)). apply addr_in. eauto. Qed.
Lemma HC_fin : forall m h B F lim a, HC m h B F lim -> In a F -> In a (addrs B).
Proof. intros m h B F lim a H I. apply (c_in _ _ _ _ _ H) in I. destruct I as (_ & b & I & E & _). apply addr_in. eauto. Qed.
Lemma HC_ptr : forall m h B F lim a, HC m h B F lim -> (prev_of F a = 0 \/ In (prev_of F a) (addrs B)) /\ (next_of F a = 0 \/ In (next_of F a) (addrs B)) /\
  (prev_of (addrs B) a = 0 \/ In (prev_of (addrs B) a) (addrs B)) /\ (next_of (addrs B) a = 0 \/ In (next_of (addrs B) a) (addrs B)).
Proof.
  intros m h B F lim a H. repeat split.
  - destruct (N.eq_dec (prev_of F a) 0); [auto|]. right. eapply HC_fin; [exact H|]. apply prev_in. assumption.
  - destruct (N.eq_dec (next_of F a) 0); [auto|]. right. eapply HC_fin; [exact H|]. apply next_in. assumption.
  - destruct (N.eq_dec (prev_of (addrs B) a) 0); [auto|]. right. apply prev_in. assumption.
  - destruct (N.eq_dec (next_of (addrs B) a) 0); [auto|]. right. apply next_in. assumption.
Qed.

Lemma hdr_full : forall m h B F lim, HC m h B F lim -> forall b, In b B -> ba b <> lim -> hdr_ok (ld m) (addrs B) F b.
Proof.
  intros m h B F lim H b I N. destruct (c_hdr _ _ _ _ _ H b I) as (H0 & H1 & H2 & H3 & H4 & H7 & H56). destruct (H56 N) as [H5 H6]. repeat split; assumption.
Qed.
Lemma HC_nz : forall m h B F lim b, HC m h B F lim -> In b B -> ba b <> 0.
Proof. intros m h B F lim b H I K. apply (tiles_nz _ _ _ (c_tiles _ _ _ _ _ H) (c_pos _ _ _ _ _ H)). rewrite <- K. apply in_addr, I. Qed.

(** ** Checking a heap *)
Lemma HC_header : forall m h B F b, HC m h B F 0 -> In b B -> verify_header m (ba b) = true.
Proof.
  intros m h B F b H I. destruct (hdr_full _ _ _ _ _ H b I (HC_nz _ _ _ _ _ _ H I)) as (E0 & E1 & E2 & E3 & E4 & E5 & E6 & E7). unfold verify_header, MAGIC1f, MAGIC2f, ALLOCf, PREVf, NEXTf, PFREEf, NFREEf.
  rewrite E0, E2, E3, E4, E5, E6, E7, !N.eqb_refl. pose proof (in_addr _ _ I) as IA. pose proof (tiles_nd _ _ _ (c_tiles _ _ _ _ _ H)) as ND.
  pose proof (tiles_nz _ _ _ (c_tiles _ _ _ _ _ H) (c_pos _ _ _ _ _ H)) as NZ.
  assert (X1 : prev_of (addrs B) (ba b) = 0 \/ prev_of (addrs B) (ba b) <> next_of (addrs B) (ba b)).
  { destruct (N.eq_dec (prev_of (addrs B) (ba b)) 0); [auto|right]. apply in_split in IA. destruct IA as (l1 & l2 & E). rewrite E in *. apply prev_ne_next; assumption. }
  assert (X2 : prev_of F (ba b) = 0 \/ prev_of F (ba b) <> next_of F (ba b)).
  { destruct (N.eq_dec (prev_of F (ba b)) 0); [auto|right]. destruct (in_dec N.eq_dec (ba b) F) as [IF|IF]; [|rewrite prev_notin in * by exact IF; congruence].
    pose proof (c_nd _ _ _ _ _ H) as NF. pose proof (HC_fnz _ _ _ _ _ H) as ZF. apply in_split in IF. destruct IF as (l1 & l2 & E). rewrite E in *. apply prev_ne_next; assumption. }
  destruct (bal b); lia.
Qed.
Lemma addrs_app : forall B1 B2, addrs (B1 ++ B2) = addrs B1 ++ addrs B2.
Proof. intros. apply map_app. Qed.
Lemma HC_from : forall m h B F, HC m h B F 0 -> forall B2 B1 n, B = B1 ++ B2 -> (length B2 <= n)%nat -> verify_from n m (last (addrs B1) 0) (hd 0 (addrs B2)) = Some true.
Proof.
  intros m h B F H. pose proof (tiles_nd _ _ _ (c_tiles _ _ _ _ _ H)) as ND. pose proof (tiles_nz _ _ _ (c_tiles _ _ _ _ _ H) (c_pos _ _ _ _ _ H)) as NZ.
  induction B2 as [|b B2 IH]; intros B1 n E Hn; [destruct n; reflexivity|]. cbn [length] in Hn. destruct n as [|n]; [lia|].
  assert (I : In b B) by (rewrite E, in_app_iff; cbn; auto). cbn [addrs map hd verify_from].
  destruct (N.eqb_spec (ba b) 0) as [Z|_]; [exfalso; apply NZ; rewrite <- Z; apply in_addr, I|].
  rewrite (HC_header _ _ _ _ _ H I). cbn [negb]. destruct (c_hdr _ _ _ _ _ H b I) as (_ & _ & _ & E3 & E4 & _). unfold PREVf, NEXTf. rewrite E3, E4.
  rewrite E, addrs_app in *. cbn [addrs map] in *. fold addrs in *. rewrite l_prev, l_next by assumption. rewrite N.eqb_refl. cbn [negb].
  specialize (IH (B1 ++ [b]) n). rewrite addrs_app in IH. cbn [addrs map] in IH. rewrite last_last in IH. apply IH; [|lia]. rewrite <- app_assoc. reflexivity.
Qed.
Lemma HC_fuel : forall m h B F lim, HC m h B F lim -> (length B < fuel h)%nat.
Proof. intros m h B F lim H. pose proof (tiles_len _ _ _ (c_tiles _ _ _ _ _ H)). unfold fuel, HDR. lia. Qed.
Lemma HC_verify : forall m h B F, HC m h B F 0 -> verify_chain m h = Some true.
Proof.
  intros m h B F H. unfold verify_chain. pose proof (c_tiles _ _ _ _ _ H) as T. pose proof (c_pos _ _ _ _ _ H) as P. pose proof (HC_fuel _ _ _ _ _ H) as FU.
  pose proof (HC_from _ _ _ _ H) as V. destruct B as [|b B2]; [destruct (c_ne _ _ _ _ _ H eq_refl)|].
  assert (E : ba b = hc_first h) by (rewrite (c_first _ _ _ _ _ H); exact (proj1 T)). assert (I : In b (b :: B2)) by (cbn; auto).
  pose proof (HC_header _ _ _ _ _ H I) as VH. destruct (c_hdr _ _ _ _ _ H b I) as (_ & _ & _ & E3 & E4 & _).
  rewrite <- E. unfold PREVf, NEXTf. rewrite VH, E3, E4. unfold prev_of. cbn [addrs map prev_from next_of]. rewrite N.eqb_refl. rewrite (c_first _ _ _ _ _ H) in E.
  replace (ba b =? 0) with false by lia. cbn [negb orb N.eqb].
  specialize (V B2 [b] (fuel h) eq_refl). cbn [addrs map last] in V. apply V. cbn [length] in FU. lia.
Qed.
Lemma HC_checked : forall m h B F, HC m h B F 0 -> checked m h = true.
Proof. intros m h B F H. unfold checked. rewrite (HC_verify _ _ _ _ H). destruct (_ =? 0); reflexivity. Qed.

(** Only the headers matter *)
Lemma HC_frame : forall m m' h B F lim, HC m h B F lim -> (forall a f, In a (addrs B) -> f < 8 -> ld m' a f = ld m a f) -> HC m' h B F lim.
Proof.
  intros m m' h B F lim H E. destruct H as [H1 H2 H3 H4 H5 H6 H7 H8 H9 H10]. constructor; try assumption. intros b I. specialize (H9 b I). pose proof (in_addr _ _ I).
  unfold hdr_lim in *. rewrite !E by (assumption || reflexivity). exact H9.
Qed.
Lemma HC_ctx : forall m h h' B F lim, HC m h B F lim -> hc_buf h' = hc_buf h -> hc_len h' = hc_len h -> hc_first h' = hc_first h -> hc_free h' = hc_free h -> HC m h' B F lim.
Proof. intros m h h' B F lim [] E1 E2 E3 E4. constructor; rewrite ?E1, ?E2, ?E3, ?E4; assumption. Qed.

(** ** Finding a block *)
Lemma HC_size : forall m h B F lim a, HC m h B F lim -> In a F -> exists b, In b B /\ ba b = a /\ bal b = false /\ ld m a SIZEf = bs b /\ ld m a ALLOCf = 0.
Proof.
  intros m h B F lim a H I. pose proof (proj1 (c_in _ _ _ _ _ H a) I) as (_ & b & Ib & E & Ef). exists b. destruct (c_hdr _ _ _ _ _ H b Ib) as (_ & E1 & E2 & _).
  rewrite Ef in E2. subst a. auto.
Qed.
Lemma HC_find : forall m h B F len, HC m h B F 0 -> forall F2 F1 n, F = F1 ++ F2 -> (length F2 <= n)%nat ->
  exists r, find_fit n m len (hd 0 F2) = Some r /\ ((r = 0 /\ forall a, In a F2 -> ld m a SIZEf < len) \/ (In r F2 /\ len <= ld m r SIZEf)).
Proof.
  intros m h B F len H. pose proof (c_nd _ _ _ _ _ H) as ND. pose proof (HC_fnz _ _ _ _ _ H) as NZ.
  induction F2 as [|a F2 IH]; intros F1 n E Hn.
  - exists 0. destruct n; (split; [reflexivity|left; split; [reflexivity|intros a []]]).
  - cbn [length] in Hn. destruct n as [|n]; [lia|]. cbn [hd find_fit]. assert (I : In a F) by (rewrite E, in_app_iff; cbn; auto).
    destruct (N.eqb_spec a 0) as [->|Za]; [contradiction|]. destruct (N.leb_spec len (ld m a SIZEf)) as [L|L].
    + exists a. split; [reflexivity|]. right. cbn. auto.
    + destruct (HC_size _ _ _ _ _ _ H I) as (b & Ib & Eb & _). destruct (hdr_full _ _ _ _ _ H b Ib (HC_nz _ _ _ _ _ _ H Ib)) as (_ & _ & _ & _ & _ & _ & E6 & _). rewrite Eb in E6.
      replace (ld m a NFREEf) with (hd 0 F2) by (unfold NFREEf; rewrite E6, E in *; rewrite l_next by assumption; reflexivity).
      destruct (IH (F1 ++ [a]) n) as (r & Er & C); [rewrite <- app_assoc; exact E|lia|]. exists r. split; [exact Er|]. destruct C as [[Z C]|[C1 C2]].
      * left. split; [exact Z|]. intros x [<-|Ix]; [exact L|apply C, Ix].
      * right. split; [right; exact C1|exact C2].
Qed.
Lemma HC_flen : forall m h B F lim, HC m h B F lim -> (length F <= length B)%nat.
Proof.
  intros m h B F lim H. rewrite <- (map_length ba B). apply NoDup_incl_length; [exact (c_nd _ _ _ _ _ H)|]. intros a I. exact (HC_fin _ _ _ _ _ _ H I).
Qed.
