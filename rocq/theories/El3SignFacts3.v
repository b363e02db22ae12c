(** Token signing by EL3: what schedules guarantee. *)
From Coq Require Import NArith List Bool Lia ZifyBool ZifyN.
From Verif Require Import El3Sign SpecEl3Sign El3SignFacts El3SignFacts2.
Import ListNotations.
Local Open Scope N_scope.

(** No step breaks *)
Lemma step_safe : forall n y tr o b, W n y tr -> J y tr -> sstep y o <> SBad b.
Proof.
  intros n y tr o b HW HJ E. destruct (step_bad n y tr o b HW E) as [N1 N2]. destruct o; cbn [sstep] in E.
  1: unfold rec_create in E; split_match E.
  1: unfold rec_destroy in E; split_match E.
  1: unfold rec_enter in E; split_match E.
  1: unfold rec_leave in E; split_match E.
  1: unfold token_init in E; split_match E.
  1: unfold ctx_init in E; cbv zeta in E; split_match E.
  1: unfold token_create in E; cbv zeta in E; split_match E.
  1: unfold token_continue in E; split_match E.
  - unfold token_sign in E. destruct (y_pc y c); try discriminate E. destruct (own y c) as [[a0 r0]|] eqn:Eo; [|discriminate E].
    apply own_some in Eo. destruct Eo as [_ Er].
    destruct (r_len r0); [discriminate E|]. destruct (t_state (r_ctx r0)) eqn:Es; try discriminate E.
    destruct (t_lock (r_ctx r0)); [discriminate E|]. cbv zeta in E.
    pose proof (j_rec _ _ HJ a0 r0 Er) as [A B C D X F].
    set (x := if t_started (r_ctx r0) then r_ctx r0 else _) in E.
    assert (Y : t_siglen x <= t_room x /\ (t_valid x = true -> t_queued x = true)).
    { unfold x. destruct (t_started (r_ctx r0)) eqn:Est.
      - split; [apply (F eq_refl Es)|intro K; apply (D K)].
      - cbn. split; [apply N.le_refl|intro K; apply (D K)]. }
    clearbody x. destruct Y as [Y1 Y2].
    destruct (t_queued x) eqn:Eq.
    + destruct (t_err x); [discriminate E|]. destruct (t_valid x); [|discriminate E]. cbn [negb] in E.
      destruct (t_room x <? t_siglen x) eqn:El; [|discriminate E]. apply N.ltb_lt in El. clear - El Y1. lia.
    + destruct (t_valid x); [specialize (Y2 eq_refl); discriminate Y2|].
      destruct (enqueue y x r) as [[[[tk q] t] en]|]; [|discriminate E].
      destruct en; try discriminate E; destruct (t_err x); discriminate E.
  - unfold irq_exit in E; split_match E.
  - unfold token_pull in E; split_match E.
  - unfold acquire in E; cbv zeta in E; split_match E.
  - unfold check in E. cbv zeta in E. split_match E; injection E as <-; congruence.
  - unfold copy in E. destruct (y_pc y c) eqn:Ep; try discriminate E. destruct (y_run y c) as [me|]; [|discriminate E].
    destruct (y_rec y a) as [r|] eqn:Er; [|discriminate E]. cbv zeta in E.
    destruct (t_buf (r_ctx r)) eqn:Eb; cbn [negb] in E; [split_match E|].
    assert (CR : crit (y_pc y c) = Some a) by (rewrite Ep; reflexivity).
    assert (HC := w_crit _ _ _ HW c a CR).
    destruct (w_resp _ _ _ HW c) as (h & H1 & H2 & H3); [rewrite Ep; reflexivity|]. rewrite HC in H2.
    destruct (j_copy _ _ HJ c a r Ep Er) as [Q1 _].
    destruct (rj_ticket _ _ _ (j_rec _ _ HJ a r Er) _ _ H2 (eq_sym Q1)) as [Q _].
    destruct (rj_queued _ _ _ (j_rec _ _ HJ a r Er) Q) as (_ & _ & K & _). congruence.
  - unfold mark in E. cbv zeta in E. split_match E.
  - unfold release in E. cbv zeta in E. split_match E.
  - unfold token_out in E. cbv zeta in E. split_match E.
Qed.

(** A token is ready only with a valid signature *)
Definition ready (y : ssys) : Prop :=
  (forall a r, y_rec y a = Some r -> r_len r = true -> t_valid (r_ctx r) = true) /\
  (forall c a r, y_pc y c = PInit -> y_run y c = Some a -> y_rec y a = Some r -> r_len r = false).

(** What one step shows of signing and tokens *)
Definition shows (y : ssys) (tr e : list sev) : Prop :=
  (forall a h, In (EvSigned a h) e -> e = [EvSigned a h] /\ answered a h tr) /\
  (forall a h b, In (EvToken a h b) e -> e = [EvToken a h b] /\ answered a h tr /\
     exists r, y_rec y a = Some r /\ b = r_buf r /\ h = t_hash (r_ctx r) /\ r_len r = true).
Lemma shows_nil : forall y tr, shows y tr [].
Proof. split; intros; contradiction. Qed.
Lemma shows_new : forall y tr a, shows y tr [EvNew a].
Proof. intros. split; intros; destruct H as [H|[]]; discriminate H. Qed.

Lemma ready_pc : forall y c p, ready y -> p <> PInit -> ready (set_pc y c p).
Proof.
  intros y c p [H1 H2] Hp. split; [exact H1|]. intros c' a r K. cbn in K. unfold supd in K.
  destruct (N.eqb_spec c' c); [contradiction|exact (H2 c' a r K)].
Qed.
Lemma ready_rec : forall y a r0 r, ready y -> y_rec y a = Some r0 ->
  (r_len r = true -> r_len r0 = true /\ (t_valid (r_ctx r0) = true -> t_valid (r_ctx r) = true)) -> ready (set_rec y a (Some r)).
Proof.
  intros y a r0 r [H1 H2] H0 Hr. split.
  - intros a' r' K L. cbn in K. unfold supd in K. destruct (N.eqb_spec a' a); [|exact (H1 a' r' K L)].
    injection K as <-. destruct (Hr L) as [L0 V]. apply V, (H1 a r0 H0 L0).
  - intros c' a' r' K R L. cbn in K, R, L. unfold supd in L. destruct (N.eqb_spec a' a); [|exact (H2 c' a' r' K R L)].
    injection L as <-. subst a'. destruct (r_len r) eqn:E; [|reflexivity]. destruct (Hr eq_refl) as [L0 _].
    rewrite (H2 c' a r0 K R H0) in L0. discriminate L0.
Qed.

Lemma answered_valid : forall tr a x, RJ tr a x -> t_valid x = true -> answered a (t_hash x) tr.
Proof.
  intros tr a x [A B C D X F] V. destruct (D V) as [Q K]. destruct (A Q) as (A1 & A2 & _).
  exists (t_ticket x). rewrite <- A2. auto.
Qed.

Ltac dull := match goal with
  | |- ready (set_pc (set_rec _ _ _) _ _) => apply ready_pc; [eapply ready_rec; eauto; cbn; auto; try discriminate|discriminate]
  | |- ready (set_pc _ _ _) => apply ready_pc; [eauto|discriminate] end.

Lemma step_shows : forall n y tr o y' e, W n y tr -> J y tr -> ready y -> sstep y o = SOk y' e -> ready y' /\ shows y tr e.
Proof.
  intros n y tr o y' e HW HJ HR E. destruct o; cbn [sstep] in E.
  - unfold rec_create in E. destruct (y_rec y a) eqn:Er; [discriminate E|]. injection E as <- <-. split; [|apply shows_new].
    destruct HR as [H1 H2]. split; cbn.
    + intros a' r' K. unfold supd in K. destruct (N.eqb_spec a' a); [injection K as <-; discriminate|exact (H1 a' r' K)].
    + intros c' a' r' K R L. unfold supd in L. destruct (N.eqb_spec a' a); [injection L as <-; reflexivity|exact (H2 c' a' r' K R L)].
  - unfold rec_destroy in E. split_match E. injection E as <- <-. split; [|apply shows_nil].
    destruct HR as [H1 H2]. split; cbn.
    + intros a' r' K. unfold supd in K. destruct (N.eqb_spec a' a); [discriminate K|exact (H1 a' r' K)].
    + intros c' a' r' K R L. unfold supd in L. destruct (N.eqb_spec a' a); [discriminate L|exact (H2 c' a' r' K R L)].
  - unfold rec_enter in E. destruct (y_rec y a) as [r|] eqn:Er; [|discriminate E].
    destruct (y_pc y c) eqn:Ep; try discriminate E. split_match E. injection E as <- <-.
    split; [|apply shows_nil].
    assert (R : ready (set_rec y a (Some (mkSrec (Some c) false (r_len r) (r_buf r) (r_ctx r))))) by (eapply ready_rec; eauto; cbn; auto).
    destruct R as [R1 R2]. split; [exact R1|]. intros c' a' r' K R. cbn in K, R. unfold supd in R.
    destruct (N.eqb_spec c' c); [subst; congruence|exact (R2 c' a' r' K R)].
  - unfold rec_leave in E. destruct (y_pc y c) eqn:Ep; try discriminate E. destruct (own y c) as [[a r]|] eqn:Eo; [|discriminate E].
    apply own_some in Eo. destruct Eo as [_ Er]. injection E as <- <-.
    split; [|apply shows_nil].
    assert (R : ready (set_rec y a (Some (mkSrec None (r_glock r) (r_len r) (r_buf r) (r_ctx r))))) by (eapply ready_rec; eauto; cbn; auto).
    destruct R as [R1 R2]. split; [exact R1|]. intros c' a' r' K R. cbn in K, R. unfold supd in R.
    destruct (N.eqb_spec c' c); [subst; congruence|exact (R2 c' a' r' K R)].
  - unfold token_init in E. destruct (y_pc y c) eqn:Ep; try discriminate E. destruct (own y c) as [[a r]|] eqn:Eo; [|discriminate E].
    apply own_some in Eo. destruct Eo as [Erun Er].
    assert (R : forall x, ready (set_rec y a (Some (mkSrec (r_run r) (r_glock r) false (r_buf r) x))))
      by (intro; eapply ready_rec; eauto; cbn; discriminate).
    split; [|split_match E; injection E as <- <-; apply shows_new].
    assert (G : forall p x, ready (set_pc (set_rec y a (Some (mkSrec (r_run r) (r_glock r) false (r_buf r) x))) c p)).
    { intros p x. destruct (R x) as [R1 R2]. split; [exact R1|]. intros c' a' r' K Q L. cbn in K, Q, L. unfold supd in K.
      destruct (N.eqb_spec c' c); [|exact (R2 c' a' r' K Q L)]. subst c'. assert (a' = a) by congruence. subst a'.
      rewrite supd_eq in L. injection L as <-. reflexivity. }
    split_match E; injection E as <- <-; apply G.
  - unfold ctx_init in E. destruct (y_pc y c) eqn:Ep; try discriminate E. destruct (own y c) as [[a r]|] eqn:Eo; [|discriminate E].
    apply own_some in Eo. destruct Eo as [Erun Er]. cbv zeta in E. split_match E; injection E as <- <-; (split; [|apply shows_nil]).
    + apply ready_pc; [|discriminate]. eapply ready_rec; eauto. cbn. intros K. exfalso.
      rewrite (proj2 HR c a r Ep Erun Er) in K. discriminate K.
    + dull.
  - unfold token_create in E. destruct (y_pc y c); try discriminate E. destruct (own y c) as [[a r]|] eqn:Eo; [|discriminate E].
    apply own_some in Eo. destruct Eo as [Erun Er]. cbv zeta in E.
    destruct (t_state (r_ctx r)); [|destruct h as [[h n0]|]| |]; injection E as <- <-; (split; [|apply shows_nil]); dull.
  - unfold token_continue in E. split_match E. injection E as <- <-. split; [dull|apply shows_nil].
  - unfold token_sign in E. destruct (y_pc y c) eqn:Ep; try discriminate E. destruct (own y c) as [[a q]|] eqn:Eo; [|discriminate E].
    apply own_some in Eo. destruct Eo as [Erun Er].
    destruct (r_len q) eqn:Elen; [discriminate E|].
    destruct (t_state (r_ctx q)) eqn:Es.
    1, 2, 4: injection E as <- <-; split; [dull|apply shows_nil].
    destruct (t_lock (r_ctx q)); [discriminate E|]. cbv zeta in E.
    pose proof (j_rec _ _ HJ a q Er) as RJq.
    set (x := if t_started (r_ctx q) then r_ctx q else _) in E.
    assert (Y : t_hash x = t_hash (r_ctx q) /\ t_valid x = t_valid (r_ctx q) /\ t_queued x = t_queued (r_ctx q)).
    { unfold x. destruct (t_started (r_ctx q)); cbn; auto. }
    clearbody x. destruct Y as (Y1 & Y2 & Y3).
    assert (FIN : forall p tk sh qs len x', p <> PInit -> (len = true -> t_valid x' = true) ->
       ready (set_pc (mkSsys tk sh qs (y_resp y) (y_pc y) (y_run y)
               (supd (y_rec y) a (Some (mkSrec (r_run q) (r_glock q) len (r_buf q) x')))) c p)).
    { intros p tk sh qs len x' Hp Hx. destruct HR as [H1 H2]. split; cbn.
      - intros a' r' K. unfold supd in K. destruct (N.eqb_spec a' a); [injection K as <-; exact Hx|exact (H1 a' r' K)].
      - intros c' a' r' K R L. unfold supd in K, L. destruct (N.eqb_spec c' c); [contradiction|].
        destruct (N.eqb_spec a' a); [|exact (H2 c' a' r' K R L)]. subst a'. exfalso.
        destruct (j_run _ _ HJ c a Erun) as (q1 & Q1 & Q2). destruct (j_run _ _ HJ c' a R) as (q2 & Q3 & Q4). congruence. }
    assert (ASK : forall t h, shows y tr [EvAsk t (t_cookie x) h]).
    { intros. split; intros; destruct H as [H|[]]; discriminate H. }
    destruct (t_queued x) eqn:Eq.
    + destruct (t_err x); [injection E as <- <-; split; [apply FIN; discriminate|apply shows_nil]|].
      destruct (t_valid x) eqn:Ev.
      * cbn [negb] in E. destruct (t_room x <? t_siglen x); [discriminate E|]. injection E as <- <-.
        split; [apply FIN; [discriminate|auto]|].
        assert (AN : answered a (t_hash x) tr) by (rewrite Y1; apply (answered_valid _ _ _ RJq); congruence).
        cbn [app]. split.
        -- intros a' h [H|[]]. injection H as <- <-. auto.
        -- intros a' h b [H|[]]. discriminate H.
      * injection E as <- <-. split; [apply FIN; discriminate|apply shows_nil].
    + assert (V : t_valid x = false).
      { rewrite Y2. destruct (t_valid (r_ctx q)) eqn:V; [|reflexivity]. destruct (rj_valid _ _ _ RJq V). congruence. }
      rewrite V in E.
      destruct (enqueue y x r) as [[[[tk qs] t] en]|]; [|discriminate E].
      destruct en.
      * destruct (t_err x); injection E as <- <-; (split; [apply FIN; discriminate|apply ASK]).
      * destruct (t_err x); injection E as <- <-; (split; [apply FIN; discriminate|apply shows_nil]).
      * injection E as <- <-; (split; [apply FIN; discriminate|apply shows_nil]).
  - unfold irq_exit in E. split_match E. injection E as <- <-. split; [dull|apply shows_nil].
  - unfold token_pull in E. split_match E; injection E as <- <-.
    + split; [|split; intros; destruct H as [H|[]]; discriminate H].
      apply ready_pc; [|discriminate]. exact HR.
    + split; [dull|apply shows_nil].
    + split; [|apply shows_nil]. apply ready_pc; [|discriminate]. exact HR.
  - unfold acquire in E. destruct (y_pc y c); try discriminate E. destruct (y_run y c); [|discriminate E]. cbv zeta in E.
    destruct (y_rec y (p_cookie (y_resp y c))) as [r|] eqn:Er; [|injection E as <- <-; split; [dull|apply shows_nil]].
    split_match E; injection E as <- <-; (split; [|apply shows_nil]); dull.
  - unfold check in E. destruct (y_pc y c); try discriminate E. cbv zeta in E.
    destruct (y_rec y a) as [r|] eqn:Er; [|discriminate E].
    split_match E; injection E as <- <-; (split; [|apply shows_nil]); dull.
  - unfold copy in E. destruct (y_pc y c); try discriminate E. destruct (y_run y c) as [me|]; [|discriminate E].
    destruct (y_rec y a) as [r|] eqn:Er; [|discriminate E]. cbv zeta in E.
    destruct (t_buf (r_ctx r)); cbn [negb] in E; [|discriminate E].
    match type of E with match y_rec ?z me with _ => _ end = _ => set (y1 := z) in E end.
    assert (R1 : ready y1) by (eapply ready_rec; eauto; cbn; auto).
    destruct (y_rec y1 me) as [m|] eqn:Em; [|discriminate E]. injection E as <- <-. split; [|apply shows_nil]. dull.
  - unfold mark in E. destruct (y_pc y c); try discriminate E. cbv zeta in E.
    destruct (y_rec y a) as [r|] eqn:Er; [|discriminate E]. injection E as <- <-. split; [|apply shows_nil]. dull.
  - unfold release in E. destruct (y_pc y c); try discriminate E. destruct (y_run y c) as [me|]; [|discriminate E]. cbv zeta in E.
    destruct (y_rec y a) as [r|] eqn:Er; [|discriminate E]. injection E as <- <-. split; [|apply shows_nil]. dull.
  - unfold token_out in E. destruct (y_pc y c); try discriminate E. destruct (own y c) as [[a r]|] eqn:Eo; [|discriminate E].
    apply own_some in Eo. destruct Eo as [_ Er]. destruct (r_len r) eqn:Elen; [|discriminate E]. cbv zeta in E.
    destruct (t_state (r_ctx r)) eqn:Es.
    1, 2, 3: injection E as <- <-; split; [dull|apply shows_nil].
    injection E as <- <-. split; [dull|].
    split; [intros a' h [H|[]]; discriminate H|].
    intros a' h b [H|[]]. injection H as <- <- <-. split; [reflexivity|]. split.
    + apply (answered_valid _ _ _ (j_rec _ _ HJ a r Er)). exact (proj1 HR a r Er Elen).
    + exists r. auto.
Qed.

(** Signatures fetched where they are asked for *)
Definition signed_buf (r : srec) : Prop := r_buf r = Sig (t_ehash (r_ctx r)).
Definition home (y : ssys) : Prop :=
  (forall a r, y_rec y a = Some r -> t_valid (r_ctx r) = true -> signed_buf r) /\
  (forall c a r, y_pc y c = PMark a -> y_rec y a = Some r -> signed_buf r).

Lemma home_pc : forall y c p, home y -> (forall a, p <> PMark a) -> home (set_pc y c p).
Proof.
  intros y c p [H1 H2] Hp. split; [exact H1|]. intros c' a r K. cbn in K. unfold supd in K.
  destruct (N.eqb_spec c' c); [exfalso; exact (Hp a K)|exact (H2 c' a r K)].
Qed.
Lemma home_rec : forall y a r, home y -> (t_valid (r_ctx r) = true -> signed_buf r) ->
  (forall c, y_pc y c = PMark a -> signed_buf r) -> home (set_rec y a (Some r)).
Proof.
  intros y a r [H1 H2] K1 K2. split; cbn.
  - intros a' r' K. unfold supd in K. destruct (N.eqb_spec a' a); [injection K as <-; exact K1|exact (H1 a' r' K)].
  - intros c' a' r' K L. unfold supd in L. destruct (N.eqb_spec a' a); [|exact (H2 c' a' r' K L)].
    injection L as <-. subst a'. exact (K2 c' K).
Qed.

Ltac homely := match goal with
  | |- home (set_pc (set_rec _ _ _) _ _) => apply home_pc; [apply home_rec; auto|discriminate]
  | |- home (set_pc _ _ _) => apply home_pc; [auto|discriminate] end.

Lemma step_home : forall n y tr o y' e, W n y tr -> J y tr -> home y ->
  match o with STokenInit c => match own y c with Some (_, r) => negb (t_lock (r_ctx r)) | None => true end | _ => true end = true ->
  match o with SCopy c => match y_pc y c, y_run y c with PCopy a, Some me => a =? me | _, _ => true end | _ => true end = true ->
  sstep y o = SOk y' e -> home y'.
Proof.
  intros n y tr o y' e HW HJ HR Hcalm Hhome E.
  assert (MK : forall a r, y_rec y a = Some r -> t_lock (r_ctx r) = false -> forall c, y_pc y c <> PMark a).
  { intros a r Hr Hl c K. apply (no_crit y tr c a r HJ Hr Hl). rewrite K. reflexivity. }
  destruct o; cbn [sstep] in E.
  - unfold rec_create in E. destruct (y_rec y a) eqn:Er; [discriminate E|]. injection E as <- <-.
    apply home_rec; [exact HR|discriminate|]. intros c K. exfalso.
    destruct (j_lock _ _ HJ c a) as (r & R & _); [rewrite K; reflexivity|congruence].
  - unfold rec_destroy in E. split_match E. injection E as <- <-. destruct HR as [H1 H2]. split; cbn.
    + intros a' r' K. unfold supd in K. destruct (N.eqb_spec a' a); [discriminate K|exact (H1 a' r' K)].
    + intros c' a' r' K L. unfold supd in L. destruct (N.eqb_spec a' a); [discriminate L|exact (H2 c' a' r' K L)].
  - unfold rec_enter in E. destruct (y_rec y a) as [r|] eqn:Er; [|discriminate E].
    destruct (y_pc y c) eqn:Ep; try discriminate E. split_match E. injection E as <- <-.
    apply (home_rec y a); [exact HR|exact (proj1 HR a r Er)|intros c' K; exact (proj2 HR c' a r K Er)].
  - unfold rec_leave in E. destruct (y_pc y c) eqn:Ep; try discriminate E. destruct (own y c) as [[a r]|] eqn:Eo; [|discriminate E].
    apply own_some in Eo. destruct Eo as [_ Er]. injection E as <- <-.
    apply (home_rec y a); [exact HR|exact (proj1 HR a r Er)|intros c' K; exact (proj2 HR c' a r K Er)].
  - unfold token_init in E. destruct (y_pc y c) eqn:Ep; try discriminate E. destruct (own y c) as [[a r]|] eqn:Eo; [|discriminate E].
    apply own_some in Eo. destruct Eo as [Erun Er]. apply negb_true_iff in Hcalm.
    assert (NM := MK a r Er Hcalm).
    destruct (t_state (r_ctx r)); injection E as <- <-; apply home_pc; try discriminate;
      (apply home_rec; [exact HR| |intros c' K; exfalso; exact (NM c' K)]); cbn; try discriminate.
    exact (proj1 HR a r Er).
  - unfold ctx_init in E. destruct (y_pc y c) eqn:Ep; try discriminate E. destruct (own y c) as [[a r]|] eqn:Eo; [|discriminate E].
    apply own_some in Eo. destruct Eo as [Erun Er]. cbv zeta in E.
    destruct heap; [|injection E as <- <-; homely].
    destruct (t_lock (r_ctx r)) eqn:El; [discriminate E|]. injection E as <- <-.
    homely; [discriminate|]. intros c' K. exfalso. exact (MK a r Er El c' K).
  - unfold token_create in E. destruct (y_pc y c); try discriminate E. destruct (own y c) as [[a r]|] eqn:Eo; [|discriminate E].
    apply own_some in Eo. destruct Eo as [Erun Er]. cbv zeta in E.
    destruct (t_state (r_ctx r)); [|destruct h as [[h n0]|]| |]; injection E as <- <-; homely;
      [exact (proj1 HR a r Er)|intros c' K; exact (proj2 HR c' a r K Er)].
  - unfold token_continue in E. split_match E. injection E as <- <-. homely.
  - unfold token_sign in E. destruct (y_pc y c) eqn:Ep; try discriminate E. destruct (own y c) as [[a q]|] eqn:Eo; [|discriminate E].
    apply own_some in Eo. destruct Eo as [Erun Er].
    destruct (r_len q) eqn:Elen; [discriminate E|].
    destruct (t_state (r_ctx q)) eqn:Es.
    1, 2, 4: injection E as <- <-; homely.
    destruct (t_lock (r_ctx q)) eqn:El; [discriminate E|]. cbv zeta in E.
    assert (NM := MK a q Er El).
    pose proof (j_rec _ _ HJ a q Er) as RJq.
    set (x := if t_started (r_ctx q) then r_ctx q else _) in E.
    assert (Y : t_valid x = true -> r_buf q = Sig (t_ehash x)).
    { unfold x. destruct (t_started (r_ctx q)) eqn:Est; cbn; intro V; [exact (proj1 HR a q Er V)|exfalso].
      destruct (rj_valid _ _ _ RJq V) as [Q _]. destruct (rj_queued _ _ _ RJq Q) as (_ & _ & _ & K & _). congruence. }
    clearbody x.
    assert (FIN : forall p tk sh qs len x', (forall b, p <> PMark b) -> t_valid x' = t_valid x -> t_ehash x' = t_ehash x ->
       home (set_pc (mkSsys tk sh qs (y_resp y) (y_pc y) (y_run y)
               (supd (y_rec y) a (Some (mkSrec (r_run q) (r_glock q) len (r_buf q) x')))) c p)).
    { intros p tk sh qs len x' Hp Hx He. apply home_pc; [|exact Hp].
      assert (G : home (set_rec y a (Some (mkSrec (r_run q) (r_glock q) len (r_buf q) x')))).
      { apply home_rec; [exact HR| |intros c' K; exfalso; exact (NM c' K)]. unfold signed_buf. cbn. rewrite Hx, He. exact Y. }
      exact G. }
    destruct (if t_queued x then _ else enqueue y x r) as [[[[tk qs] t] en]|]; [|discriminate E].
    destruct (t_err x) eqn:Xe; destruct (t_valid x) eqn:V; cbn [negb] in E; destruct en; cbn [negb] in E;
      repeat match type of E with (if ?b then _ else _) = _ => destruct b end; try discriminate E;
      injection E as <- <-; apply FIN; try discriminate; cbn; auto.
  - unfold irq_exit in E. split_match E. injection E as <- <-. homely.
  - unfold token_pull in E. split_match E; injection E as <- <-; (apply home_pc; [exact HR|discriminate]).
  - unfold acquire in E. destruct (y_pc y c); try discriminate E. destruct (y_run y c); [|discriminate E]. cbv zeta in E.
    destruct (y_rec y (p_cookie (y_resp y c))) as [r|] eqn:Er; [|injection E as <- <-; homely].
    split_match E; injection E as <- <-; homely; try exact (proj1 HR _ r Er); intros c' K; exact (proj2 HR c' _ r K Er).
  - unfold check in E. destruct (y_pc y c); try discriminate E. cbv zeta in E.
    destruct (y_rec y a) as [r|] eqn:Er; [|discriminate E].
    split_match E; injection E as <- <-; homely; try exact (proj1 HR _ r Er); intros c' K; exact (proj2 HR c' _ r K Er).
  - unfold copy in E. destruct (y_pc y c) eqn:Ep; try discriminate E. destruct (y_run y c) as [me|] eqn:Erun; [|discriminate E].
    apply N.eqb_eq in Hhome. subst me.
    destruct (y_rec y a) as [r|] eqn:Er; [|discriminate E]. cbv zeta in E.
    destruct (t_buf (r_ctx r)); cbn [negb] in E; [|discriminate E].
    assert (CR : crit (y_pc y c) = Some a) by (rewrite Ep; reflexivity).
    assert (HC := w_crit _ _ _ HW c a CR).
    destruct (w_resp _ _ _ HW c) as (h & H1 & H2 & H3); [rewrite Ep; reflexivity|]. rewrite HC in H2.
    destruct (j_copy _ _ HJ c a r Ep Er) as [Q1 _].
    destruct (rj_ticket _ _ _ (j_rec _ _ HJ a r Er) _ _ H2 (eq_sym Q1)) as [Q Q2].
    destruct (rj_queued _ _ _ (j_rec _ _ HJ a r Er) Q) as (Q3 & _).
    assert (Eh : h = t_ehash (r_ctx r)) by congruence.
    match type of E with match y_rec ?z a with _ => _ end = _ => set (y1 := z) in E end.
    assert (Em : exists x1, y_rec y1 a = Some (set_ctx r x1) /\ t_ehash x1 = t_ehash (r_ctx r)).
    { unfold y1. cbn. rewrite supd_eq. eexists. split; reflexivity. }
    destruct Em as (x1 & Em & Ex). rewrite Em in E. injection E as <- <-.
    destruct HR as [R1 R2]. split; cbn.
    + intros a' r' K. unfold supd at 1 in K. destruct (N.eqb_spec a' a).
      * injection K as <-. intros _. unfold signed_buf. cbn. congruence.
      * rewrite supd_ne in K by assumption. exact (R1 a' r' K).
    + intros c' a' r' K L. unfold supd at 1 in L. destruct (N.eqb_spec a' a).
      * injection L as <-. unfold signed_buf. cbn. congruence.
      * rewrite supd_ne in L by assumption. unfold supd in K. destruct (N.eqb_spec c' c); [congruence|exact (R2 c' a' r' K L)].
  - unfold mark in E. destruct (y_pc y c) eqn:Ep; try discriminate E. cbv zeta in E.
    destruct (y_rec y a) as [r|] eqn:Er; [|discriminate E]. injection E as <- <-.
    homely; [intros _; exact (proj2 HR c a r Ep Er)|intros c' K; exact (proj2 HR c' _ r K Er)].
  - unfold release in E. destruct (y_pc y c); try discriminate E. destruct (y_run y c) as [me|]; [|discriminate E]. cbv zeta in E.
    destruct (y_rec y a) as [r|] eqn:Er; [|discriminate E]. injection E as <- <-.
    homely; [exact (proj1 HR _ r Er)|intros c' K; exact (proj2 HR c' _ r K Er)].
  - unfold token_out in E. destruct (y_pc y c); try discriminate E. destruct (own y c) as [[a r]|] eqn:Eo; [|discriminate E].
    apply own_some in Eo. destruct Eo as [_ Er]. destruct (r_len r) eqn:Elen; [|discriminate E]. cbv zeta in E.
    destruct (t_state (r_ctx r)) eqn:Es; injection E as <- <-; homely;
      [exact (proj1 HR _ r Er)|intros c' K; exact (proj2 HR c' _ r K Er)].
Qed.

(** Whole schedules *)
Definition fair_trace (tr : list sev) : Prop :=
  (forall post a h pre, tr = post ++ EvSigned a h :: pre -> answered a h pre) /\
  (forall post a h b pre, tr = post ++ EvToken a h b :: pre -> answered a h pre).

Lemma app_cons_split : forall (e tr post : list sev) v pre, e ++ tr = post ++ v :: pre ->
  (exists k, tr = k ++ v :: pre) \/ (exists post' k, e = post' ++ v :: k /\ pre = k ++ tr).
Proof.
  induction e as [|w e IH]; intros tr post v pre H.
  - left. exists post. exact H.
  - destruct post as [|p post]; cbn in H; injection H as -> H.
    + right. exists [], e. split; [reflexivity|]. symmetry. exact H.
    + destruct (IH _ _ _ _ H) as [K|(post' & k & K1 & K2)]; [left; exact K|right].
      exists (p :: post'), k. split; [rewrite K1; reflexivity|exact K2].
Qed.
Lemma single : forall (v w : sev) post k, [v] = post ++ w :: k -> post = [] /\ w = v /\ k = [].
Proof.
  intros v w post k H. destruct post as [|p post].
  - injection H as -> <-. auto.
  - injection H as _ H. destruct post; discriminate H.
Qed.
Lemma fair_step : forall y tr e, fair_trace tr -> shows y tr e -> fair_trace (e ++ tr).
Proof.
  intros y tr e [F1 F2] [S1 S2]. split.
  - intros post a h pre H. destruct (app_cons_split _ _ _ _ _ H) as [[k K]|(post' & k & K1 & K2)]; [exact (F1 k a h pre K)|].
    destruct (S1 a h) as [He An]; [rewrite K1; apply in_or_app; right; left; reflexivity|].
    rewrite He in K1. destruct (single _ _ _ _ K1) as (_ & _ & ->). cbn in K2. subst pre. exact An.
  - intros post a h b pre H. destruct (app_cons_split _ _ _ _ _ H) as [[k K]|(post' & k & K1 & K2)]; [exact (F2 k a h b pre K)|].
    destruct (S2 a h b) as (He & An & _); [rewrite K1; apply in_or_app; right; left; reflexivity|].
    rewrite He in K1. destruct (single _ _ _ _ K1) as (_ & _ & ->). cbn in K2. subst pre. exact An.
Qed.

Lemma calm_run : forall l n y tr, W n y tr -> J y tr -> ready y -> fair_trace tr -> calm y l = true ->
  n + N.of_nat (length l) + 1 < 2 ^ 64 ->
  exists y' tr', srun y tr l = inr (y', tr') /\ fair_trace tr' /\
    (home y -> (forall a h b, In (EvToken a h b) tr -> b = Sig h) -> at_home y l = true ->
     forall a h b, In (EvToken a h b) tr' -> b = Sig h).
Proof.
  induction l as [|o l IH]; intros n y tr HW HJ HR HF HC Hn.
  - exists y, tr. cbn. auto.
  - cbn [srun calm at_home] in *. cbn [length] in Hn. rewrite Nat2N.inj_succ in Hn.
    apply andb_true_iff in HC. destruct HC as [HC1 HC2].
    assert (M : W (n + 1) y tr) by (destruct HW; constructor; auto; lia).
    assert (Hn' : n + 1 + N.of_nat (length l) + 1 < 2 ^ 64) by lia.
    destruct (sstep y o) as [|b|y' e] eqn:E.
    + destruct (IH (n + 1) y tr M HJ HR HF HC2 Hn') as (y2 & tr2 & I1 & I2 & I3). exists y2, tr2.
      split; [exact I1|]. split; [exact I2|]. intros H1 H2 H3. apply andb_true_iff in H3. destruct H3. apply I3; assumption.
    + exfalso. exact (step_safe n y tr o b HW HJ E).
    + assert (L : n + 2 < 2 ^ 64) by lia.
      pose proof (step_W _ _ _ _ _ _ HW L E) as W'.
      pose proof (step_J _ _ _ _ _ _ HW HJ L HC1 E) as J'.
      destruct (step_shows _ _ _ _ _ _ HW HJ HR E) as [R' S'].
      destruct (IH (n + 1) y' (e ++ tr) W' J' R' (fair_step _ _ _ HF S') HC2 Hn') as (y2 & tr2 & I1 & I2 & I3). exists y2, tr2.
      split; [exact I1|]. split; [exact I2|]. intros H1 H2 H3. apply andb_true_iff in H3. destruct H3 as [H3 H4].
      apply I3; [exact (step_home _ _ _ _ _ _ HW HJ H1 HC1 H3 E)| |exact H4].
      intros a h b K. apply in_app_or in K. destruct K as [K|K]; [|exact (H2 a h b K)].
      destruct S' as [_ S2]. destruct (S2 a h b K) as (_ & _ & r & K1 & -> & -> & K4).
      rewrite (proj1 H1 a r K1 (proj1 HR a r K1 K4)).
      destruct (rj_valid _ _ _ (j_rec _ _ HJ a r K1) (proj1 HR a r K1 K4)) as [Q _].
      destruct (rj_queued _ _ _ (j_rec _ _ HJ a r K1) Q) as (_ & Q2 & _). rewrite Q2. reflexivity.
Qed.

Lemma ready_0 : ready ssys0.
Proof. split; intros; discriminate. Qed.
Lemma home_0 : home ssys0.
Proof. split; intros; discriminate. Qed.
Lemma fair_0 : fair_trace [].
Proof. split; intros post; intros; destruct post; discriminate. Qed.

Lemma tickets_ok : forall l b, N.of_nat (length l) + 1 < 2 ^ 64 -> srun ssys0 [] l = inl b -> b <> BadTicket /\ b <> BadCookie.
Proof. intros l b Hl E. pose proof (run_W l 0 ssys0 [] W_0 Hl) as H. rewrite E in H. exact H. Qed.
Lemma calm_ok : forall l, N.of_nat (length l) + 1 < 2 ^ 64 -> calm ssys0 l = true ->
  exists y tr, srun ssys0 [] l = inr (y, tr) /\
    (forall post a h pre, tr = post ++ EvSigned a h :: pre -> answered a h pre) /\
    (forall post a h b pre, tr = post ++ EvToken a h b :: pre -> answered a h pre) /\
    (at_home ssys0 l = true -> forall a h b, In (EvToken a h b) tr -> b = Sig h).
Proof.
  intros l Hl HC. destruct (calm_run l 0 ssys0 [] W_0 J_0 ready_0 fair_0 HC Hl) as (y & tr & A & [B1 B2] & C).
  exists y, tr. split; [exact A|]. split; [exact B1|]. split; [exact B2|]. apply C; [exact home_0|]. intros a h b [].
Qed.

(** The lock of the shared buffer *)
Lemma step_shared : forall y o y' e, sstep y o = SOk y' e ->
  (y_shared y' = y_shared y \/ y_shared y = false /\ exists c, o = SPull c PullErr) /\
  (y_shared y = true -> forall v, In v e -> match v with EvAsk _ _ _ | EvAnswer _ _ _ => False | _ => True end).
Proof.
  intros y o y' e E. destruct o; cbn [sstep] in E.
  1: unfold rec_create in E; split_match E; injection E as <- <-; split; [left; reflexivity|intros _ v [<-|[]]; exact Logic.I].
  1: unfold rec_destroy in E; split_match E; injection E as <- <-; split; [left; reflexivity|intros _ v []].
  1: unfold rec_enter in E; split_match E; injection E as <- <-; split; [left; reflexivity|intros _ v []].
  1: unfold rec_leave in E; split_match E; injection E as <- <-; split; [left; reflexivity|intros _ v []].
  1: unfold token_init in E; split_match E; injection E as <- <-; (split; [left; reflexivity|intros _ v [<-|[]]; exact Logic.I]).
  1: unfold ctx_init in E; cbv zeta in E; split_match E; injection E as <- <-; (split; [left; reflexivity|intros _ v []]).
  1: unfold token_create in E; cbv zeta in E; split_match E; injection E as <- <-; (split; [left; reflexivity|intros _ v []]).
  1: unfold token_continue in E; split_match E; injection E as <- <-; (split; [left; reflexivity|intros _ v []]).
  1: { unfold token_sign in E. destruct (y_pc y c); try discriminate E. destruct (own y c) as [[a0 r0]|]; [|discriminate E].
       destruct (r_len r0); [discriminate E|].
       destruct (t_state (r_ctx r0)); try (injection E as <- <-; split; [left; reflexivity|intros _ v []]).
       destruct (t_lock (r_ctx r0)); [discriminate E|]. cbv zeta in E.
       set (x := if t_started (r_ctx r0) then r_ctx r0 else _) in E. clearbody x.
       destruct (t_queued x).
       - split_match E; injection E as <- <-; (split; [left; reflexivity|]); intros _ v K; cbn in K; try contradiction.
         destruct K as [<-|[]]. exact Logic.I.
       - unfold enqueue in E. destruct (t_alg x); cbn [negb] in E.
         + destruct (y_shared y) eqn:Ey; [discriminate E|].
           destruct r; split_match E; injection E as <- <-; (split; [left; reflexivity|discriminate]).
         + injection E as <- <-. split; [left; reflexivity|intros _ v []]. }
  1: unfold irq_exit in E; split_match E; injection E as <- <-; (split; [left; reflexivity|intros _ v []]).
  1: { unfold token_pull in E. destruct (y_pc y c); try discriminate E. destruct (y_shared y) eqn:Es; [discriminate E|].
       destruct r; split_match E; injection E as <- <-; (split; [|discriminate]); cbn; eauto. }
  1: unfold acquire in E; cbv zeta in E; split_match E; injection E as <- <-; (split; [left; reflexivity|intros _ v []]).
  1: unfold check in E; cbv zeta in E; split_match E; injection E as <- <-; (split; [left; reflexivity|intros _ v []]).
  1: unfold copy in E; cbv zeta in E; split_match E; injection E as <- <-; (split; [left; reflexivity|intros _ v []]).
  1: unfold mark in E; cbv zeta in E; split_match E; injection E as <- <-; (split; [left; reflexivity|intros _ v []]).
  1: unfold release in E; cbv zeta in E; split_match E; injection E as <- <-; (split; [left; reflexivity|intros _ v []]).
  unfold token_out in E; cbv zeta in E; split_match E; injection E as <- <-; (split; [left; reflexivity|intros _ v K]); cbn in K;
    try contradiction. destruct K as [<-|[]]. exact Logic.I.
Qed.

Lemma shared_free : forall l y tr y' tr', y_shared y = false -> no_pull_error l -> srun y tr l = inr (y', tr') -> y_shared y' = false.
Proof.
  induction l as [|o l IH]; intros y tr y' tr' H0 HN E; cbn [srun] in E.
  - injection E as <- <-. exact H0.
  - assert (HN' : no_pull_error l) by (intros c K; apply (HN c); right; exact K).
    destruct (sstep y o) as [|b|y1 e] eqn:Es; [eapply IH; eauto|discriminate E|].
    eapply (IH y1 (e ++ tr)); eauto. destruct (step_shared _ _ _ _ Es) as [[K|[_ [c K]]] _]; [congruence|].
    exfalso. apply (HN c). left. exact K.
Qed.
Lemma shared_stuck : forall l y tr y' tr', y_shared y = true -> srun y tr l = inr (y', tr') ->
  y_shared y' = true /\ exists k, tr' = k ++ tr /\ forall v, In v k -> match v with EvAsk _ _ _ | EvAnswer _ _ _ => False | _ => True end.
Proof.
  induction l as [|o l IH]; intros y tr y' tr' H0 E; cbn [srun] in E.
  - injection E as <- <-. split; [exact H0|]. exists []. split; [reflexivity|]. intros v [].
  - destruct (sstep y o) as [|b|y1 e] eqn:Es; [eapply IH; eauto|discriminate E|].
    destruct (step_shared _ _ _ _ Es) as [K1 K2].
    assert (H1 : y_shared y1 = true) by (destruct K1 as [K|[K _]]; congruence).
    destruct (IH _ _ _ _ H1 E) as [A (k & B & C)]. split; [exact A|]. exists (k ++ e). split; [rewrite <- app_assoc; exact B|].
    intros v K. apply in_app_or in K. destruct K as [K|K]; [exact (C v K)|exact (K2 H0 v K)].
Qed.
Lemma pull_error_stuck : forall l1 c y1 tr1 y2, srun ssys0 [] l1 = inr (y1, tr1) -> sstep y1 (SPull c PullErr) = SOk y2 [] ->
  forall l2 y tr, srun y2 tr1 l2 = inr (y, tr) ->
    y_shared y = true /\
    exists new, tr = new ++ tr1 /\ forall t a h, ~ In (EvAsk t a h) new /\ ~ In (EvAnswer t a h) new.
Proof.
  intros l1 c y1 tr1 y2 _ E l2 y tr R.
  assert (H : y_shared y2 = true).
  { cbn in E. unfold token_pull in E. split_match E. injection E as <-. reflexivity. }
  destruct (shared_stuck _ _ _ _ _ H R) as [A (k & B & C)]. split; [exact A|]. exists k. split; [exact B|].
  intros t a h. split; intro K; exact (C _ K).
Qed.
