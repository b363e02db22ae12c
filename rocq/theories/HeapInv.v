(** Allocation as a whole, bytes, and the invariant of all heaps *)
From Coq Require Import NArith ZArith List Bool Lia ZifyBool ZifyN.
From Verif Require Import Heap SpecHeap HeapList HeapFacts HeapOps HeapFree HeapRun.
Import ListNotations.
Local Open Scope N_scope.
Ltac Zify.zify_post_hook ::= Z.div_mod_to_equations.

Lemma with_if : forall h (c : bool) v, with_free h (if c then set_free h v else h) (if c then v else hc_free h).
Proof. intros h [|] v; repeat split. Qed.
Lemma HC_zero : forall m h B F b0 p k, HC m h B F 0 -> In b0 B -> p = ba b0 + 64 -> k <= bs b0 -> HC (zero m p k) h B F 0.
Proof.
  intros m h B F b0 p k H I Ep Hk. eapply HC_frame; [exact H|]. intros x f Ix Hf. apply addr_in in Ix. destruct Ix as (b & Ib & <-).
  unfold ld, zero. pose proof (tiles_two _ _ _ _ _ (c_tiles _ _ _ _ _ H) I Ib) as K. replace ((p <=? ba b + 8 * f) && (ba b + 8 * f <? p + k)) with false; [reflexivity|]. destruct K as [<-|K]; lia.
Qed.

(** The call of calloc returns NULL, or takes (part of) a free block *)
Definition taken (m : words) (h : hctx) (B : list blk) (k : N) (m' : words) (h' : hctx) (B' : list blk) (F' : list N) (b0 : blk) (s : N) : Prop :=
  In b0 B /\ bal b0 = false /\ HI m' h' B' F' /\ same_ctx h h' /\ up8 k <= s /\ s < up8 k + 72 /\ s <= bs b0 /\
  (forall b, bal b = true -> (In b B' <-> In b B \/ b = mkBlk (ba b0) s true)) /\
  (forall w, w < ba b0 \/ ba b0 + 64 + bs b0 <= w -> outside (addrs B) w -> m' w = m w) /\
  (forall w, ba b0 + 64 <= w -> w < ba b0 + 64 + k -> m' w mod 2 ^ (8 * N.min 8 (ba b0 + 64 + k - w)) = 0).

Lemma zero_low : forall m p k w, p <= w -> w < p + k -> zero m p k w mod 2 ^ (8 * N.min 8 (p + k - w)) = 0.
Proof.
  intros m p k w H1 H2. unfold zero. replace ((p <=? w) && (w <? p + k)) with true by lia. destruct (N.leb_spec (w + 8) (p + k)) as [L|L].
  - apply N.mod_0_l. apply N.pow_nonzero. discriminate.
  - replace (N.min 8 (p + k - w)) with (p + k - w) by lia. apply N.mod_mul. apply N.pow_nonzero. discriminate.
Qed.

Lemma calloc_spec : forall m h B F n size, HI m h B F -> n < 2 ^ 64 -> size < 2 ^ 64 ->
  (calloc_with_heap m h n size = Some (m, h, 0) /\ (n * size = 0 \/ 2 ^ 64 - 8 < n * size \/ forall b, In b B -> bal b = false -> bs b < up8 (n * size))) \/
  (0 < n * size <= 2 ^ 64 - 8 /\ exists m' h' B' F' b0 s, calloc_with_heap m h n size = Some (m', h', ba b0 + 64) /\ taken m h B (n * size) m' h' B' F' b0 s).
Proof.
  intros m h B F n size [H CO] Hn Hs. pose proof (c_pos _ _ _ _ _ H) as PO. pose proof (c_end _ _ _ _ _ H) as CE. pose proof (c_tiles _ _ _ _ _ H) as T.
  remember (n * size) as k eqn:Ek.
  destruct (N.eq_dec k 0) as [Z|Z].
  { left. split; [|auto]. unfold calloc_with_heap. rewrite (c_first _ _ _ _ _ H). replace ((hc_buf h =? 0) || (hc_buf h =? 0)) with false by lia. rewrite <- Ek.
    replace ((n =? 0) || (size =? 0) || negb (wrap k / n =? size)) with true; [reflexivity|]. symmetry. assert (n = 0 \/ size = 0) as [-> | ->] by (apply N.eq_mul_0; congruence); cbn; rewrite ?orb_true_r; reflexivity. }
  assert (Zn : n <> 0) by (intros ->; apply Z; rewrite Ek; reflexivity). assert (Zs : size <> 0) by (intros ->; apply Z; rewrite Ek; apply N.mul_0_r).
  destruct (N.ltb_spec (2 ^ 64 - 8) k) as [L|L].
  { left. split; [|auto]. unfold calloc_with_heap. rewrite (c_first _ _ _ _ _ H). replace ((hc_buf h =? 0) || (hc_buf h =? 0)) with false by lia. rewrite <- Ek.
    destruct ((n =? 0) || (size =? 0) || negb (wrap k / n =? size)) eqn:Q; [reflexivity|]. apply orb_false_iff in Q. destruct Q as [_ Q]. apply negb_false_iff, N.eqb_eq in Q.
    destruct (N.lt_ge_cases k (2 ^ 64)) as [K|K].
    - unfold wrap. rewrite N.mod_small by exact K. unfold ALIGN. rewrite (proj2 (N.ltb_lt _ _) L). reflexivity.
    - exfalso. (* the check of the overflow *)
      assert (D : wrap k < 2 ^ 64) by (apply N.mod_lt; discriminate). assert (D2 : n * size <= wrap k) by (rewrite <- Q; apply N.mul_div_le; exact Zn). rewrite <- Ek in D2. lia. }
  assert (WK : wrap k = k) by (apply N.mod_small; lia).
  assert (DV : k / n = size) by (rewrite Ek, N.mul_comm; apply N.div_mul, Zn).
  set (len := if k mod ALIGN =? 0 then k else k - k mod ALIGN + ALIGN).
  assert (EL : len = up8 k) by (unfold len, up8, ALIGN; destruct (N.eqb_spec (k mod 8) 0); lia).
  assert (LM : len mod 8 = 0) by (rewrite EL; unfold up8; lia).
  assert (LK : k <= len) by (rewrite EL; unfold up8; lia).
  destruct (HC_find m h B F len H F [] (fuel h) eq_refl) as (r & Er & C).
  { pose proof (HC_flen _ _ _ _ _ H). pose proof (HC_fuel _ _ _ _ _ H). lia. }
  rewrite <- (c_free _ _ _ _ _ H) in Er.
  assert (OUT : forall X, match find_fit (fuel h) m len (hc_free h) with None => None | Some cur => X cur end = X r :> option (words * hctx * N)) by (intro X; rewrite Er; reflexivity).
  destruct C as [[Zr C]|[IF Sr]].
  { left. split.
    - unfold calloc_with_heap. rewrite (c_first _ _ _ _ _ H). replace ((hc_buf h =? 0) || (hc_buf h =? 0)) with false by lia. cbv zeta. rewrite <- Ek, WK, DV, N.eqb_refl.
      replace ((n =? 0) || (size =? 0) || negb true) with false by lia. unfold ALIGN at 1. replace (2 ^ 64 - 8 <? k) with false by lia. fold len. rewrite OUT, Zr. reflexivity.
    - right. right. intros b Ib Fb. rewrite <- EL. assert (J : In (ba b) F) by (apply (c_in _ _ _ _ _ H); split; [exact (HC_nz _ _ _ _ _ _ H Ib)|eauto]).
      specialize (C _ J). destruct (c_hdr _ _ _ _ _ H b Ib) as (_ & E1 & _). unfold SIZEf in C. rewrite E1 in C. exact C. }
  right. split; [lia|]. destruct (HC_size _ _ _ _ _ _ H IF) as (b0 & I0 & Eb & F0 & E1 & E2). rewrite E1 in Sr.
  pose proof (tiles_in _ _ _ _ T I0) as [T1 T2]. pose proof (c_mod _ _ _ _ _ H b0 I0) as M0.
  destruct (hdr_full _ _ _ _ _ H b0 I0 (HC_nz _ _ _ _ _ _ H I0)) as (_ & _ & _ & _ & _ & E5 & E6 & _).
  destruct (in_split _ _ I0) as (B1 & B2 & EB). destruct (in_split _ _ IF) as (F1 & F2 & EF).
  rewrite Eb in T1, T2, M0, E5, E6.
  assert (RZ : (r =? 0) = false) by lia.
  assert (RD : wrap (r + HDR) = r + 64) by (unfold wrap, HDR; apply N.mod_small; lia).
  assert (HEAD : calloc_with_heap m h n size =
    if bs b0 - len <? 72 then
      let m := st m r ALLOCf 1 in
      let pf := ld m r PFREEf in let nf := ld m r NFREEf in
      let h := if pf =? 0 then set_free h nf else h in
      let m := st_if m pf NFREEf nf in
      let m := st_if m nf PFREEf (ld m r PFREEf) in
      let m := st (st m r PFREEf 0) r NFREEf 0 in
      if checked m h then Some (zero m (r + 64) k, h, r + 64) else None
    else
      let new := wrap (r + HDR + len) in
      let m := st m new SIZEf (ld m r SIZEf - len - HDR) in
      let m := st m new ALLOCf 0 in
      let m := st m new PREVf r in
      let m := st m new NEXTf (ld m r NEXTf) in
      let m := st (st m new MAGIC1f MAGIC1) new MAGIC2f MAGIC2 in
      let m := st_if m (ld m new NEXTf) PREVf new in
      let m := st m new PFREEf (ld m r PFREEf) in
      let m := st m new NFREEf (ld m r NFREEf) in
      let h := if ld m new PFREEf =? 0 then set_free h new else h in
      let m := st_if m (ld m new PFREEf) NFREEf new in
      let m := st_if m (ld m new NFREEf) PFREEf new in
      let m := st (st (st m r ALLOCf 1) r SIZEf len) r NEXTf new in
      let m := st (st m r PFREEf 0) r NFREEf 0 in
      if checked m h then Some (zero m (r + 64) k, h, r + 64) else None).
  { unfold calloc_with_heap. rewrite (c_first _ _ _ _ _ H). replace ((hc_buf h =? 0) || (hc_buf h =? 0)) with false by lia. cbv zeta. rewrite <- Ek, WK, DV, N.eqb_refl.
    replace ((n =? 0) || (size =? 0) || negb true) with false by lia. unfold ALIGN at 1. replace (2 ^ 64 - 8 <? k) with false by lia. fold len. rewrite OUT, RZ, E2, RD, E1. reflexivity. }
  rewrite HEAD. clear HEAD OUT. destruct (N.ltb_spec (bs b0 - len) 72) as [SM|BG].
  - (* the whole block *)
    destruct (take_reads m h B1 B2 b0 B F r (prev_of F r) (next_of F r) EB Eb H eq_refl eq_refl) as (R1 & R2 & R3).
    cbv zeta in R1, R2, R3 |- *. rewrite R1, R2, R3.
    match goal with |- context [checked ?mm ?hh] => set (m' := mm); set (h' := hh) end.
    assert (W : with_free h h' (if prev_of F r =? 0 then next_of F r else hc_free h)) by (apply with_if).
    destruct (take_ok m h B1 B2 b0 F1 F2 B (B1 ++ mkBlk r (bs b0) true :: B2) F r (prev_of F r) (next_of F r) EB eq_refl EF Eb H eq_refl eq_refl _ _ _ m' h' eq_refl eq_refl eq_refl eq_refl W) as [HH FR].
    rewrite (HC_checked _ _ _ _ HH). exists (zero m' (r + 64) k), h', (B1 ++ mkBlk r (bs b0) true :: B2), (F1 ++ F2), b0, (bs b0). rewrite Eb. split; [reflexivity|].
    rewrite EB in CO. split; [exact I0|]. split; [exact F0|]. split.
    { split; [|apply (coal_take _ _ _ (mkBlk r (bs b0) true) CO eq_refl)]. apply (HC_zero _ _ _ _ (mkBlk r (bs b0) true)); [exact HH|apply mid_cases; auto|reflexivity|cbn; lia]. }
    split; [exact (with_same _ _ _ W)|]. split; [lia|]. split; [lia|]. split; [lia|]. rewrite Eb. split; [|split].
    + intros b Ab. rewrite EB, !mid_cases. split; [intros [->|K]; auto|]. intros [[->|K] | ->]; [congruence|auto|auto].
    + intros w W1 W2. unfold zero. replace ((r + 64 <=? w) && (w <? r + 64 + k)) with false by lia. apply FR, W2.
    + intros w W1 W2. apply zero_low; assumption.
  - (* part of it *)
    assert (NW : wrap (r + HDR + len) = r + 64 + len) by (unfold wrap, HDR; apply N.mod_small; lia). cbv zeta. rewrite NW.
    match goal with |- context [checked ?mm ?hh] => set (m' := mm); set (h' := hh) end.
    match goal with h' := if ?c =? 0 then _ else _ |- _ => assert (W : with_free h h' (if c =? 0 then r + 64 + len else hc_free h)) by (apply with_if) end.
    assert (LT : len + 64 <= bs b0) by lia.
    destruct (split_ok m h B1 B2 b0 F1 F2 B (B1 ++ mkBlk r len true :: mkBlk (r + 64 + len) (bs b0 - len - 64) false :: B2) F r (r + 64 + len) len EB eq_refl EF Eb eq_refl H LT LM
      _ _ _ _ _ _ _ _ _ _ _ m' h' eq_refl eq_refl eq_refl eq_refl eq_refl eq_refl eq_refl eq_refl eq_refl eq_refl eq_refl eq_refl W) as [HH FR].
    rewrite (HC_checked _ _ _ _ HH). eexists (zero m' (r + 64) k), h', _, _, b0, len. rewrite Eb. split; [reflexivity|].
    rewrite EB in CO. split; [exact I0|]. split; [exact F0|]. split.
    { split; [|apply (coal_split _ _ _ (mkBlk r len true) (mkBlk (r + 64 + len) (bs b0 - len - 64) false) CO F0 eq_refl eq_refl)]. eapply (HC_zero _ _ _ _ (mkBlk r len true)); [exact HH|apply mid_cases; auto|reflexivity|cbn; lia]. }
    split; [exact (with_same _ _ _ W)|]. split; [lia|]. split; [lia|]. split; [lia|]. rewrite Eb. split; [|split].
    + intros b Ab. rewrite EB, mid_cases2, mid_cases. split; [intros [->|[->|K]]; [auto|discriminate Ab|auto]|]. intros [[->|K] | ->]; [congruence|auto|auto].
    + intros w W1 W2. unfold zero. replace ((r + 64 <=? w) && (w <? r + 64 + k)) with false by lia. apply FR. intros x Ix. rewrite addrs_app, in_app_iff in Ix. cbn [addrs map ba In] in Ix.
      rewrite EB, addrs_app in W2. destruct Ix as [Ix|[<-|[<-|Ix]]].
      * apply W2. rewrite in_app_iff. auto.
      * apply W2. rewrite in_app_iff. cbn. auto.
      * lia.
      * apply W2. rewrite in_app_iff. cbn. auto.
    + intros w W1 W2. apply zero_low; assumption.
Qed.
