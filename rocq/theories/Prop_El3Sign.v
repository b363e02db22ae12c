(** Theorems about token signing by EL3: C60, C61, C62. *)
From Coq Require Import NArith List Bool.
From Verif Require Import El3Sign SpecEl3Sign El3SignFacts3.
Import ListNotations.
Local Open Scope N_scope.

(** Schedules to try the theorems on: REC [a] on CPU [c] asks for a token with hash [h]; CPU
    [c] fetches the answer to the i-th open request *)
Definition x_ask (c h : N) : list sop :=
  [STokenInit c; SCtxInit c true; SCreate c (Some (h, 200)); SContinue c; SSign c PushOk].
Definition x_start (a c h : N) : list sop := [SRecCreate a; SEnter c a] ++ x_ask c h.
Definition x_fetch (c : N) (i : nat) : list sop :=
  [SPull c (PullOk i 96); SAcquire c; SCheck c; SCopy c; SMark c; SRelease c].
Definition x_trace (l : list sop) : option (list sev) := match srun ssys0 [] l with inr (_, tr) => Some tr | inl _ => None end.

(** C61: whatever the schedule and the answers of EL3, the assertions about tickets and
    cookies hold *)
Theorem el3_tickets_ok : forall l b, N.of_nat (length l) + 1 < 2 ^ 64 -> srun ssys0 [] l = inl b -> b <> BadTicket /\ b <> BadCookie.
Proof. exact tickets_ok. Qed.

(** C60, C61: as long as no token is started in a REC while a CPU writes an answer to this
    REC, no assertion fails, nothing is written through a NULL pointer, and signing ends well
    only after EL3 answered the request for this token. If besides every signature is
    fetched by the CPU that runs the REC, every token has the signature over its payload. *)
Theorem el3_sign_ok_partial : forall l, N.of_nat (length l) + 1 < 2 ^ 64 -> calm ssys0 l = true ->
  exists y tr, srun ssys0 [] l = inr (y, tr) /\
    (forall post a h pre, tr = post ++ EvSigned a h :: pre -> answered a h pre) /\
    (forall post a h b pre, tr = post ++ EvToken a h b :: pre -> answered a h pre) /\
    (at_home ssys0 l = true -> forall a h b, In (EvToken a h b) tr -> b = Sig h).
Proof. exact calm_ok. Qed.
(** REC 10 cancels its token with hash 7 and asks for one with hash 9; the answer to the
    first request is dropped; REC 10 and REC 20 get their tokens *)
Example el3_sign_ok_example :
  let l := x_start 10 1 7 ++ [SIrq 1] ++ x_ask 1 9 ++ x_start 20 2 8 ++
           [SPull 1 (PullOk 0 96); SAcquire 1; SCheck 1; SRelease 1; SSign 1 PushOk] ++
           x_fetch 1 0 ++ [SSign 1 PushOk; SPull 1 PullAgain; SToken 1] ++
           x_fetch 2 0 ++ [SSign 2 PushOk; SPull 2 PullAgain; SToken 2] in
  calm ssys0 l = true /\ at_home ssys0 l = true /\
  x_trace l = Some [EvToken 20 8 (Sig 8); EvSigned 20 8; EvAnswer 3 20 8;
                    EvToken 10 9 (Sig 9); EvSigned 10 9; EvAnswer 2 10 9; EvAnswer 1 10 7;
                    EvAsk 3 20 8; EvNew 20; EvNew 20; EvAsk 2 10 9; EvNew 10; EvAsk 1 10 7; EvNew 10; EvNew 10].
Proof. vm_compute. auto. Qed.

(** F30: a signature fetched by a CPU that runs another REC is written into the token of that
    REC. REC 20 gets a token without signature although its signing ended well, and REC 10 a
    token with the signature over the token of REC 20. *)
Theorem el3_signature_refuted : exists l tr, calm ssys0 l = true /\ x_trace l = Some tr /\
  In (EvSigned 20 8) tr /\ In (EvToken 20 8 Blank) tr /\ In (EvSigned 10 7) tr /\ In (EvToken 10 7 (Sig 8)) tr.
Proof.
  exists (x_start 10 1 7 ++ x_start 20 2 8 ++ x_fetch 1 0 ++ [SSign 1 PushOk] ++ x_fetch 1 0 ++ [SToken 1] ++
     [SPull 2 PullAgain; SSign 2 PushOk; SPull 2 PullAgain; SToken 2]).
  eexists. split; [vm_compute; reflexivity|]. split; [vm_compute; reflexivity|]. cbn. auto 12.
Qed.
(** F31: while CPU 2 writes the answer for REC 10 the realm starts a new token in REC 10. If
    the wipe of the context comes before the copy, the signature is written through a NULL
    pointer. *)
Theorem el3_null_refuted : exists l, srun ssys0 [] l = inl BadNull.
Proof.
  exists (x_start 10 1 7 ++ x_start 20 2 8 ++ [SIrq 1; SPull 2 (PullOk 0 96); SAcquire 2; SCheck 2; STokenInit 1; SCopy 2]).
  vm_compute. reflexivity.
Qed.
(** If it comes after the copy and the signature is marked valid in the new context, signing
    of the new token ends well although EL3 never answered the request for it. *)
Theorem el3_unanswered_refuted : exists l tr, x_trace l = Some tr /\ In (EvToken 10 9 Blank) tr /\
  (forall t h, In (EvAnswer t 10 h) tr -> h = 7).
Proof.
  exists (x_start 10 1 7 ++ x_start 20 2 8 ++ [SIrq 1; SPull 2 (PullOk 0 96); SAcquire 2; SCheck 2; SCopy 2; STokenInit 1; SCtxInit 1 true;
     SMark 2; SRelease 2; SCreate 1 (Some (9, 200)); SContinue 1; SSign 1 PushOk; SPull 1 PullAgain; SToken 1]).
  eexists. split; [vm_compute; reflexivity|]. cbn. split; [auto|].
  intros t h H. repeat (destruct H as [H|H]; [try discriminate H; injection H; auto|]). contradiction.
Qed.

(** C62: the buffer shared with EL3 is free between the calls, unless EL3 failed to hand out
    an answer *)
Theorem el3_shared_free_partial : forall l y tr, no_pull_error l -> srun ssys0 [] l = inr (y, tr) -> y_shared y = false.
Proof. exact (fun l y tr => shared_free l ssys0 [] y tr eq_refl). Qed.
Example el3_shared_free_example :
  no_pull_error (x_start 10 1 7 ++ x_fetch 1 0) /\
  exists y tr, srun ssys0 [] (x_start 10 1 7 ++ x_fetch 1 0) = inr (y, tr) /\ In (EvAnswer 1 10 7) tr.
Proof.
  split.
  - intros c H. cbn in H. repeat (destruct H as [H|H]; [discriminate H|]). exact H.
  - eexists. eexists. split; [vm_compute; reflexivity|]. cbn. auto.
Qed.
(** F29: after one such failure no request of any REC is accepted and no answer is fetched
    any more, on any CPU, for ever *)
Theorem el3_pull_error_refuted : forall l1 c y1 tr1 y2, srun ssys0 [] l1 = inr (y1, tr1) -> sstep y1 (SPull c PullErr) = SOk y2 [] ->
  forall l2 y tr, srun y2 tr1 l2 = inr (y, tr) ->
    y_shared y = true /\
    exists new, tr = new ++ tr1 /\ forall t a h, ~ In (EvAsk t a h) new /\ ~ In (EvAnswer t a h) new.
Proof. exact pull_error_stuck. Qed.
Example el3_pull_error_example :
  exists y1 tr1 y2, srun ssys0 [] (x_start 10 1 7) = inr (y1, tr1) /\ sstep y1 (SPull 1 PullErr) = SOk y2 [] /\
  exists y tr, srun y2 tr1 (x_start 20 2 8) = inr (y, tr) /\ ~ In (EvAsk 2 20 8) tr.
Proof.
  eexists. eexists. eexists. split; [vm_compute; reflexivity|]. split; [vm_compute; reflexivity|].
  eexists. eexists. split; [vm_compute; reflexivity|]. cbn. intro H.
  repeat (destruct H as [H|H]; [discriminate H|]). exact H.
Qed.

Definition el3_theorems := (@el3_tickets_ok, @el3_sign_ok_partial, @el3_signature_refuted, @el3_null_refuted, @el3_unanswered_refuted,
  @el3_shared_free_partial, @el3_pull_error_refuted).
Print Assumptions el3_theorems.
