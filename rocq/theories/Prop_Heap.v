(** C37: the heap of the crypto library. *)
From Coq Require Import NArith List Bool Lia.
From Verif Require Import Heap SpecHeap HeapHist.
Import ListNotations.
Local Open Scope N_scope.

(** No sequence of calls that keeps to the rules of [legal] ends in a failed assertion or in
    a loop that does not end. *)
Theorem C37_no_panic : forall s L A o, history s L A -> legal s L A o -> exists s' rp, hstep s o = Some (s', rp).
Proof. intros s L A o H LG. destruct (step_ok _ _ _ _ (history_inv _ _ _ H) LG) as (s' & rp & E & _). eauto. Qed.

(** An allocation is a multiple of 8, inside of the buffer of the heap, apart from every
    other one of any heap, of the size asked for without overflow, and zero. *)
Theorem C37_alloc : forall s L A p i n size s' a, history s L A -> legal s L A (HCalloc p n size) -> hs_cpu s p = Some i ->
  hstep s (HCalloc p n size) = Some (s', HPtr a) -> a <> 0 ->
  0 < n * size /\ a mod 8 = 0 /\
  (exists buf len, A i = Some (buf, len) /\ buf <= a /\ a + n * size <= buf + len) /\
  (forall x, In x L -> apart a (n * size) (al_ptr x) (al_len x)) /\
  (forall c, a <= c < a + n * size -> byte (hs_mem s') c = 0).
Proof.
  intros s L A p i n size s' a H (_ & Hn & Hs) EP E Za. destruct (calloc_step _ _ _ _ _ _ _ (history_inv _ _ _ H) EP Hn Hs) as (s2 & a2 & E2 & _ & C). rewrite E in E2. injection E2 as <- <-.
  destruct C as [(Z & _)|(_ & PK & V & ZB & _)]; [contradiction|]. destruct (inv_place _ _ _ _ V (or_introl eq_refl)) as (buf & len & EA & _ & X1 & X2 & X3). cbn in EA, X1, X2, X3.
  pose proof (up8_le buf). split; [lia|]. split; [exact X3|]. split; [exists buf, len; repeat split; [exact EA|lia|lia]|]. split; [|exact ZB].
  intros x Ix. pose proof (inv_distinct _ _ _ V) as D. inversion D as [|? ? D1 _]; subst. rewrite Forall_forall in D1. exact (D1 x Ix).
Qed.
(** At any time, all allocations are apart from each other and inside of their buffers. *)
Theorem C37_disjoint : forall s L A, history s L A ->
  ForallOrdPairs (fun x y => apart (al_ptr x) (al_len x) (al_ptr y) (al_len y)) L /\
  forall x, In x L -> exists buf len, A (al_heap x) = Some (buf, len) /\ buf <= al_ptr x /\ al_ptr x + al_len x <= buf + len /\ 0 < al_len x.
Proof.
  intros s L A H. pose proof (history_inv _ _ _ H) as V. split; [exact (inv_distinct _ _ _ V)|]. intros x Ix. destruct (inv_place _ _ _ _ V Ix) as (buf & len & EA & _ & X1 & X2 & _).
  destruct (inv_block _ _ _ _ V Ix) as (? & ? & ? & ? & b & _ & _ & _ & _ & _ & _ & _ & _ & _ & _ & _ & S). pose proof (up8_le buf). exists buf, len. repeat split; [exact EA|lia|lia|lia].
Qed.
(** No call changes a byte of an allocation; only the owner does. *)
Theorem C37_keeps : forall s L A o s' rp x c, history s L A -> legal s L A o -> hstep s o = Some (s', rp) ->
  In x L -> In x (live_after (on_cpu s o) o rp L) -> al_ptr x <= c < al_ptr x + al_len x ->
  byte (hs_mem s') c = match o with HWrite a v => if c =? a then v mod 256 else byte (hs_mem s) c | _ => byte (hs_mem s) c end.
Proof. intros s L A o s' rp x c H. exact (keeps s L A o s' rp x c (history_inv _ _ _ H)). Qed.
(** NULL: nothing changes. *)
Theorem C37_null : forall s L A p n size s', history s L A -> legal s L A (HCalloc p n size) ->
  hstep s (HCalloc p n size) = Some (s', HPtr 0) -> hs_mem s' = hs_mem s /\ hs_cpu s' = hs_cpu s /\ forall j, hs_ctx s' j = hs_ctx s j.
Proof.
  intros s L A p n size s' H ([i EP] & Hn & Hs) E. destruct (calloc_step _ _ _ _ _ _ _ (history_inv _ _ _ H) EP Hn Hs) as (s2 & a2 & E2 & EC & C). rewrite E in E2. injection E2 as <- <-.
  destruct C as [(_ & K1 & K2 & _)|(Z & _)]; [auto|congruence].
Qed.
(** NULL is returned only if there is no room: if some range of the buffer has no allocation
    in it or too close to it (64 bytes of header before each, up to 78 bytes of padding after),
    then what fits in it with a header can be allocated, however the memory was used before. *)
Theorem C37_room : forall s L A p i n size buf len g k s' a, history s L A -> legal s L A (HCalloc p n size) -> hs_cpu s p = Some i ->
  set_up A i buf len -> 0 < n * size <= 2 ^ 64 - 8 -> up8 buf <= g -> g + k <= buf + len -> 64 + up8 (n * size) <= k ->
  (forall x, In x L -> al_heap x = i -> apart g k (al_ptr x - 64) (64 + up8 (al_len x) + 71)) ->
  hstep s (HCalloc p n size) = Some (s', HPtr a) -> a <> 0.
Proof. intros s L A p i n size buf len g k s' a H (_ & Hn & Hs) EP. exact (room_step s L A p i n size buf len g k s' a (history_inv _ _ _ H) EP Hn Hs). Qed.
(** When everything was freed, the heap is as it was at first: one block with all of the
    buffer. *)
Theorem C37_restored : forall s L A p i n size buf len s' a, history s L A -> legal s L A (HCalloc p n size) -> hs_cpu s p = Some i ->
  set_up A i buf len -> (forall x, In x L -> al_heap x <> i) -> hstep s (HCalloc p n size) = Some (s', HPtr a) ->
  a = if (n * size =? 0) || (buf + len <? up8 buf + 64 + up8 (n * size)) then 0 else up8 buf + 64.
Proof. intros s L A p i n size buf len s' a H (_ & Hn & Hs) EP. exact (restored_step s L A p i n size buf len s' a (history_inv _ _ _ H) EP Hn Hs). Qed.
(** The check of the heap always finds it good. *)
Theorem C37_verify : forall s L A p i buf len, history s L A -> hs_cpu s p = Some i -> set_up A i buf len -> hstep s (HVerify p) = Some (s, HGood true).
Proof.
  intros s L A p i buf len H EP [EA LL]. destruct (verify_step _ _ _ _ _ (history_inv _ _ _ H) EP) as (b & E & K). rewrite (K _ _ EA LL) in E. exact E.
Qed.
(** But once the check at each free is switched on, freeing any allocation fails an assertion:
    memory_alloc.c:356 asserts the opposite of what is meant. *)
Theorem C37_verify_free_refuted : forall s L A p i ptr n v, history s L A -> hs_cpu s p = Some i -> In (mkAlloc i ptr n) L -> N.testbit v 1 = true ->
  exists s1, hstep s (HSetVerify p v) = Some (s1, HNone) /\ hstep s1 (HFree p ptr) = None.
Proof.
  intros s L A p i ptr n v H EP I B. eexists. split; [unfold hstep at 1; rewrite EP; reflexivity|]. apply (free_checked s L A p i ptr n v (history_inv _ _ _ H) EP I).
  intro K. assert (X : N.testbit (N.land (v mod 2 ^ 32) VERIFY_FREE) 1 = true) by (rewrite N.land_spec, N.mod_pow2_bits_low, B by reflexivity; reflexivity). rewrite K in X. discriminate.
Qed.

(** ** Example: two heaps; allocations of 15, 40 and 100 bytes, the second is freed, then the
    first, and a larger one takes their place *)
Definition hrun (s : hstate) (o : hop) : hstate := match hstep s o with Some (s', _) => s' | None => s end.
Definition hans (s : hstate) (o : hop) : option hreply := match hstep s o with Some (_, r) => Some r | None => None end.
Definition h0 := mkHs (fun a => a) (fun _ => no_heap) (fun _ => None).
Definition h1 := hrun (hrun (hrun (hrun h0 (HAssign 0 0)) (HInit 0 4100 1000)) (HAssign 1 7)) (HInit 1 5100 400).
Definition h2 := hrun (hrun (hrun h1 (HCalloc 0 3 5)) (HCalloc 0 1 40)) (HCalloc 0 10 10).
Definition h3 := hrun (hrun h2 (HWrite 4360 77)) (HFree 0 4248).
Definition h4 := hrun h3 (HFree 0 4168).
Definition hL := [mkAlloc 0 4352 100; mkAlloc 0 4248 40; mkAlloc 0 4168 15].
Definition hA : arenas := fun j => if j =? 7 then Some (5100, 400) else if j =? 0 then Some (4100, 1000) else None.

Lemma hrun_eq : forall s o rp, hans s o = Some rp -> hstep s o = Some (hrun s o, rp).
Proof. intros s o rp. unfold hans, hrun. destruct (hstep s o) as [[s' r]|]; [intro E; injection E as ->; reflexivity|discriminate]. Qed.
Lemma go : forall s L A o rp i L' A', history s L A -> legal s L A o -> hans s o = Some rp -> on_cpu s o = i -> L' = live_after i o rp L -> A' = arenas_after i o A ->
  history (hrun s o) L' A'.
Proof. intros s L A o rp i L' A' H LG E1 E2 -> ->. subst i. exact (hy_step s L A o (hrun s o) rp H LG (hrun_eq _ _ _ E1)). Qed.
Ltac go H rp i := refine (go _ _ _ _ rp i _ _ H _ _ _ _ _); [|vm_compute; reflexivity|vm_compute; reflexivity|reflexivity|reflexivity].
Ltac has := exists 0; vm_compute; reflexivity.

Example heap_h1 : history h1 [] hA.
Proof.
  pose proof (hy_start (fun a => a)) as H.
  assert (H1 : history (hrun h0 (HAssign 0 0)) [] (fun _ => None)) by (go H (HGood true) (@None N); exact Logic.I).
  assert (H2 : history (hrun (hrun h0 (HAssign 0 0)) (HInit 0 4100 1000)) [] (fun j => if j =? 0 then Some (4100, 1000) else None)).
  { go H1 HNone (Some 0). exists 0. split; [vm_compute; reflexivity|]. split; [lia|]. split; [lia|]. discriminate. }
  assert (H3 : history (hrun (hrun (hrun h0 (HAssign 0 0)) (HInit 0 4100 1000)) (HAssign 1 7)) [] (fun j => if j =? 0 then Some (4100, 1000) else None)) by (go H2 (HGood true) (@None N); exact Logic.I).
  unfold h1. go H3 HNone (Some 7). exists 7. split; [vm_compute; reflexivity|]. split; [lia|]. split; [lia|]. intros j b n N. cbn. destruct (j =? 0); [|discriminate]. intro E. injection E as <- <-. right. lia.
Qed.
Example heap_h2 : history h2 hL hA.
Proof.
  assert (H1 : history (hrun h1 (HCalloc 0 3 5)) [mkAlloc 0 4168 15] hA) by (go heap_h1 (HPtr 4168) (Some 0); split; [has|lia]).
  assert (H2 : history (hrun (hrun h1 (HCalloc 0 3 5)) (HCalloc 0 1 40)) [mkAlloc 0 4248 40; mkAlloc 0 4168 15] hA) by (go H1 (HPtr 4248) (Some 0); split; [has|lia]).
  unfold h2. go H2 (HPtr 4352) (Some 0). split; [has|lia].
Qed.
Example heap_h4 : history h4 [mkAlloc 0 4352 100] hA.
Proof.
  assert (H1 : history (hrun h2 (HWrite 4360 77)) hL hA) by (go heap_h2 HNone (@None N); exists (mkAlloc 0 4352 100); cbn; split; [auto|lia]).
  assert (H2 : history h3 [mkAlloc 0 4352 100; mkAlloc 0 4168 15] hA).
  { unfold h3. go H1 HNone (Some 0). exists 0. split; [vm_compute; reflexivity|]. right. exists 40. cbn. auto. }
  unfold h4. go H2 HNone (Some 0). exists 0. split; [vm_compute; reflexivity|]. right. exists 15. cbn. auto.
Qed.
(** The allocations are where they should be; the byte that was written is kept; 100 bytes
    fit in the two blocks that were freed and joined: [C37_room] applies with them *)
Example heap_facts :
  hans h4 (HCalloc 0 1 100) = Some (HPtr 4168) /\ hans h2 (HCalloc 0 2 (2 ^ 63)) = Some (HPtr 0) /\ hans h2 (HCalloc 0 1 0) = Some (HPtr 0) /\
  hans h2 (HCalloc 0 1 581) = Some (HPtr 0) /\ hans h2 (HCalloc 1 1 328) = Some (HPtr 5168) /\ hans h2 (HVerify 0) = Some (HGood true) /\
  byte (hs_mem h4) 4360 = 77 /\ hans h2 (HFree 0 4168) = Some HNone.
Proof. vm_compute. repeat split; reflexivity. Qed.
Example heap_room : legal h4 [mkAlloc 0 4352 100] hA (HCalloc 0 1 100) /\ set_up hA 0 4100 1000 /\ up8 4100 <= 4104 /\ 4104 + 184 <= 4100 + 1000 /\ 64 + up8 (1 * 100) <= 184 /\
  (forall x, In x [mkAlloc 0 4352 100] -> al_heap x = 0 -> apart 4104 184 (al_ptr x - 64) (64 + up8 (al_len x) + 71)).
Proof.
  split; [split; [has|lia]|]. split; [split; [reflexivity|lia]|]. split; [vm_compute; discriminate|]. split; [lia|]. split; [vm_compute; discriminate|]. intros x [<-|[]] _. left. cbn. lia.
Qed.
Example heap_restored : exists s', history s' [] hA /\ hans s' (HCalloc 0 1 928) = Some (HPtr 4168) /\ hans s' (HCalloc 0 1 929) = Some (HPtr 0).
Proof.
  exists (hrun h4 (HFree 0 4352)). split; [|vm_compute; repeat split; reflexivity]. go heap_h4 HNone (Some 0). exists 0. split; [vm_compute; reflexivity|]. right. exists 100. cbn. auto.
Qed.
Example heap_refuted : hans (hrun h2 (HSetVerify 0 2)) (HFree 0 4168) = None.
Proof. vm_compute. reflexivity. Qed.

Definition heap_theorems := (@C37_no_panic, @C37_alloc, @C37_disjoint, @C37_keeps, @C37_null, @C37_room, @C37_restored, @C37_verify, @C37_verify_free_refuted,
  heap_h4, heap_facts, heap_room, heap_restored, heap_refuted).
Print Assumptions heap_theorems.
