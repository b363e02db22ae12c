(** Proofs about token signing by EL3. *)
From Coq Require Import NArith List Bool Lia ZifyBool ZifyN.
From Verif Require Import El3Sign SpecEl3Sign.
Import ListNotations.
Local Open Scope N_scope.

Definition crit (p : spc) : option N :=
  match p with PCheck a | PCopy a | PMark a | PRel a => Some a | _ => None end.
Definition busy (p : spc) : bool := match p with PWrite => true | _ => match crit p with Some _ => true | None => false end end.

Lemma supd_eq : forall A (f : N -> A) k v, supd f k v k = v.
Proof. intros. unfold supd. rewrite N.eqb_refl. reflexivity. Qed.
Lemma supd_ne : forall A (f : N -> A) k v x, x <> k -> supd f k v x = f x.
Proof. intros. unfold supd. destruct (N.eqb_spec x k); [contradiction|reflexivity]. Qed.

(** Part 1: what holds in every schedule *)
Definition RW (tr : list sev) (a : N) (x : tctx) : Prop :=
  (t_ticket x = 0 \/ forall t h, In (EvAsk t a h) tr -> t <= t_ticket x) /\ (t_state x <> GNotStarted -> t_cookie x = a).
Record W (n : N) (y : ssys) (tr : list sev) : Prop := mkW {
  w_tick : 1 <= y_ticket y <= n + 1;
  w_ask : forall t a h, In (EvAsk t a h) tr -> 1 <= t < y_ticket y;
  w_el3 : forall q, In q (y_el3 y) -> In (EvAsk (q_ticket q) (q_cookie q) (q_hash q)) tr;
  w_resp : forall c, busy (y_pc y c) = true -> exists h, p_sig (y_resp y c) = Sig h /\
    In (EvAsk (p_ticket (y_resp y c)) (p_cookie (y_resp y c)) h) tr /\ In (EvAnswer (p_ticket (y_resp y c)) (p_cookie (y_resp y c)) h) tr;
  w_crit : forall c a, crit (y_pc y c) = Some a -> p_cookie (y_resp y c) = a;
  w_rec : forall a r, y_rec y a = Some r -> RW tr a (r_ctx r)
}.

Lemma W_0 : W 0 ssys0 [].
Proof. constructor; cbn; intros; try contradiction; try discriminate. lia. Qed.

Lemma W_gen : forall n y tr y' e, W n y tr ->
  y_ticket y' = y_ticket y -> y_el3 y' = y_el3 y -> y_resp y' = y_resp y ->
  (forall t a h, ~ In (EvAsk t a h) e) ->
  (forall c, busy (y_pc y' c) = true -> busy (y_pc y c) = true) ->
  (forall c a, crit (y_pc y' c) = Some a -> p_cookie (y_resp y c) = a) ->
  (forall a r, y_rec y' a = Some r -> RW tr a (r_ctx r)) ->
  W (n + 1) y' (e ++ tr).
Proof.
  intros n y tr y' e [A B C D F G] E1 E2 E3 E4 E5 E6 E7.
  assert (X : forall t a h, In (EvAsk t a h) (e ++ tr) -> In (EvAsk t a h) tr).
  { intros t a h H. apply in_app_or in H. destruct H as [H|H]; [exfalso; exact (E4 _ _ _ H)|exact H]. }
  constructor; rewrite ?E1, ?E2, ?E3.
  - lia.
  - intros t a h H. apply (B t a h), X, H.
  - intros q H. apply in_or_app. right. apply C, H.
  - intros c H. destruct (D c (E5 c H)) as (h & H1 & H2 & H3). exists h. repeat split; try (apply in_or_app; right); assumption.
  - exact E6.
  - intros a r H. destruct (E7 a r H) as [[H1|H1] H2]; split; try exact H2; [left; exact H1|right].
    intros t h K. apply (H1 t h), X, K.
Qed.

Ltac split_match H :=
  repeat match type of H with context [match ?x with _ => _ end] => let E := fresh "E" in destruct x eqn:E; try discriminate H end.
Ltac upd := unfold supd in *; repeat match goal with
  | H : context [?x =? ?k] |- _ => destruct (N.eqb_spec x k); subst
  | |- context [?x =? ?k] => destruct (N.eqb_spec x k); subst end.

Lemma own_some : forall y c a r, own y c = Some (a, r) -> y_run y c = Some a /\ y_rec y a = Some r.
Proof.
  intros y c a r H. unfold own in H. destruct (y_run y c) as [b|]; [|discriminate H].
  destruct (y_rec y b) as [q|] eqn:E; [|discriminate H]. injection H as <- <-. split; [reflexivity|exact E].
Qed.

(** A step that changes the place of one CPU and one REC *)
Lemma W_upd : forall n y tr c p a r0 r e, W n y tr -> (forall t b h, ~ In (EvAsk t b h) e) ->
  y_rec y a = Some r0 ->
  (busy p = true -> busy (y_pc y c) = true) -> (forall b, crit p = Some b -> p_cookie (y_resp y c) = b) ->
  (RW tr a (r_ctx r0) -> RW tr a (r_ctx r)) ->
  W (n + 1) (set_pc (set_rec y a (Some r)) c p) (e ++ tr).
Proof.
  intros n y tr c p a r0 r e HW He H0 Hb Hc Hr. apply W_gen with (y := y); try reflexivity; try assumption.
  - intros c' H. cbn in H. unfold supd in H. destruct (N.eqb_spec c' c); [subst; apply Hb, H|exact H].
  - intros c' a' H. cbn in H. unfold supd in H. destruct (N.eqb_spec c' c); [subst; apply Hc, H|apply (w_crit _ _ _ HW), H].
  - intros a' r' H. cbn in H. unfold supd in H. destruct (N.eqb_spec a' a).
    + injection H as <-. subst. apply Hr, (w_rec _ _ _ HW), H0.
    + apply (w_rec _ _ _ HW), H.
Qed.
Lemma W_pc : forall n y tr c p e, W n y tr -> (forall t b h, ~ In (EvAsk t b h) e) ->
  (busy p = true -> busy (y_pc y c) = true) -> (forall b, crit p = Some b -> p_cookie (y_resp y c) = b) ->
  W (n + 1) (set_pc y c p) (e ++ tr).
Proof.
  intros n y tr c p e HW He Hb Hc. apply W_gen with (y := y); try reflexivity; try assumption.
  - intros c' H. cbn in H. unfold supd in H. destruct (N.eqb_spec c' c); [subst; apply Hb, H|exact H].
  - intros c' a' H. cbn in H. unfold supd in H. destruct (N.eqb_spec c' c); [subst; apply Hc, H|apply (w_crit _ _ _ HW), H].
  - intros a' r' H. apply (w_rec _ _ _ HW), H.
Qed.

Lemma no_ask_nil : forall t b h, ~ In (EvAsk t b h) [].
Proof. intros t b h []. Qed.
Lemma no_ask_1 : forall v, (forall t b h, v <> EvAsk t b h) -> forall t b h, ~ In (EvAsk t b h) [v].
Proof. intros v H t b h [K|[]]. exact (H _ _ _ K). Qed.
#[local] Hint Resolve no_ask_nil : signdb.
#[local] Hint Extern 2 (forall t b h, ~ In (EvAsk t b h) [_]) => (apply no_ask_1; discriminate) : signdb.

Lemma set_rec_run_W : forall n y tr a r0 r c v, W n y tr -> y_rec y a = Some r0 -> r_ctx r = r_ctx r0 ->
  W (n + 1) (set_run (set_rec y a (Some r)) c v) ([] ++ tr).
Proof.
  intros n y tr a r0 r c v HW H0 Hr. apply W_gen with (y := y); try reflexivity; auto with signdb.
  - exact (w_crit _ _ _ HW).
  - intros a' r' H. cbn in H. unfold supd in H. destruct (N.eqb_spec a' a).
    + injection H as <-. subst. rewrite Hr. apply (w_rec _ _ _ HW), H0.
    + apply (w_rec _ _ _ HW), H.
Qed.

Lemma sign_W : forall n y tr c p y' e, W n y tr -> n + 2 < 2 ^ 64 -> token_sign y c p = SOk y' e -> W (n + 1) y' (e ++ tr).
Proof.
  intros n y tr c p y' e HW Hn E. unfold token_sign in E.
  destruct (y_pc y c) eqn:Epc; try discriminate E.
  destruct (own y c) as [[a r]|] eqn:Eo; [|discriminate E]. apply own_some in Eo. destruct Eo as [Erun Erec].
  destruct (r_len r); [discriminate E|].
  destruct (t_state (r_ctx r)) eqn:Est.
  1, 2, 4: injection E as <- <-; apply W_pc; auto with signdb; cbn; discriminate.
  destruct (t_lock (r_ctx r)); [discriminate E|].
  cbv zeta in E.
  set (x := if t_started (r_ctx r) then r_ctx r else _) in E.
  pose proof (w_rec _ _ _ HW a r Erec) as [RW1 RW2]. rewrite Est in RW2. specialize (RW2 ltac:(discriminate)).
  assert (X : t_ticket x = t_ticket (r_ctx r) /\ t_cookie x = a /\ t_queued x = t_queued (r_ctx r)).
  { unfold x. destruct (t_started (r_ctx r)); cbn; auto. }
  clearbody x. destruct X as (X1 & X2 & X3).
  destruct (t_queued x) eqn:Eq.
  - (* nothing is asked *)
    assert (Z : forall len st s pc evs, (forall t b h, ~ In (EvAsk t b h) evs) -> (busy pc = false) ->
      W (n + 1) (set_pc (mkSsys (y_ticket y) (y_shared y) (y_el3 y) (y_resp y) (y_pc y) (y_run y)
                 (supd (y_rec y) a (Some (mkSrec (r_run r) (r_glock r) len (r_buf r)
                   (mkTctx st (t_hash x) (t_room x) s false true (t_valid x) (t_err x) (t_alg x) (t_cookie x) (t_ticket x)
                           (t_siglen x) (t_buf x) (t_ehash x)))))) c pc) (evs ++ tr)).
    { intros len st s pc evs Hv Hp.
      change (W (n + 1) (set_pc (set_rec y a (Some (mkSrec (r_run r) (r_glock r) len (r_buf r)
                   (mkTctx st (t_hash x) (t_room x) s false true (t_valid x) (t_err x) (t_alg x) (t_cookie x) (t_ticket x)
                           (t_siglen x) (t_buf x) (t_ehash x))))) c pc) (evs ++ tr)).
      apply W_upd with (r0 := r); auto.
      - rewrite Hp. discriminate.
      - intros b Hb. unfold busy in Hp. rewrite Hb in Hp. destruct pc; discriminate.
      - intros _. split; cbn; [rewrite X1; exact RW1|auto]. }
    destruct (t_err x).
    + injection E as <- <-. apply Z; auto with signdb.
    + destruct (t_valid x).
      * destruct (t_room x <? t_siglen x); [discriminate E|]. injection E as <- <-. rewrite ?app_nil_r. apply Z; auto with signdb.
      * injection E as <- <-. apply Z; auto with signdb.
  - unfold enqueue in E. destruct (t_alg x) eqn:Ea; cbn [negb] in E.
    2:{ injection E as <- <-. cbn [app].
      change (W (n + 1) (set_pc (set_rec y a (Some (mkSrec (r_run r) (r_glock r) false (r_buf r)
                   (mkTctx GSign (t_hash x) (t_room x) (t_started x) false false (t_valid x) (t_err x) false (t_cookie x) (t_ticket x)
                           (t_siglen x) (t_buf x) (t_ehash x))))) c PIdle) ([] ++ tr)).
      apply W_upd with (r0 := r); auto with signdb; cbn; try discriminate.
      intros _. split; cbn; [rewrite X1; exact RW1|auto]. }
    destruct (y_shared y); [discriminate E|].
    destruct HW as [A B C D F G].
    assert (T : (y_ticket y + 1) mod 2 ^ 64 = y_ticket y + 1) by (apply N.mod_small; lia).
    rewrite T in E. clear T.
    assert (Z : forall q evs len st s pc qd, busy pc = false ->
      (forall k, In k q -> In k (y_el3 y) \/ k = mkReq (y_ticket y) a (t_ehash x) /\ In (EvAsk (y_ticket y) a (t_ehash x)) evs) ->
      (forall t b h, In (EvAsk t b h) evs -> t = y_ticket y /\ b = a) ->
      W (n + 1) (set_pc (mkSsys (y_ticket y + 1) false q (y_resp y) (y_pc y) (y_run y)
                 (supd (y_rec y) a (Some (mkSrec (r_run r) (r_glock r) len (r_buf r)
                   (mkTctx st (t_hash x) (t_room x) s false qd (t_valid x) (t_err x) true (t_cookie x) (y_ticket y)
                           (t_siglen x) (t_buf x) (t_ehash x)))))) c pc) (evs ++ tr)).
    { intros q evs len st s pc qd Hp Hq He. constructor; cbn.
      - lia.
      - intros t b h H. apply in_app_or in H. destruct H as [H|H]; [apply He in H; lia|apply B in H; lia].
      - intros k H. apply Hq in H. destruct H as [H|[-> H]]; apply in_or_app; [right; apply C, H|left; exact H].
      - intros c' H. unfold supd in H. destruct (N.eqb_spec c' c); [congruence|].
        destruct (D c' H) as (h & H1 & H2 & H3). exists h. repeat split; try (apply in_or_app; right); assumption.
      - intros c' a' H. unfold supd in H. destruct (N.eqb_spec c' c).
        + unfold busy in Hp. rewrite H in Hp. destruct pc; discriminate.
        + apply F, H.
      - intros a' r' H. unfold supd in H. destruct (N.eqb_spec a' a).
        + injection H as <-. subst a'. split; cbn; [right|auto].
          intros t h K. apply in_app_or in K. destruct K as [K|K]; [apply He in K; lia|apply B in K; lia].
        + destruct (G a' r' H) as [[H1|H1] H2]; split; auto. right. intros t h K. apply in_app_or in K.
          destruct K as [K|K]; [apply He in K; lia|apply (H1 t h), K]. }
    assert (Q : forall evs k, In k (y_el3 y ++ [mkReq (y_ticket y) (t_cookie x) (t_ehash x)]) ->
      In (EvAsk (y_ticket y) a (t_ehash x)) evs ->
      In k (y_el3 y) \/ k = mkReq (y_ticket y) a (t_ehash x) /\ In (EvAsk (y_ticket y) a (t_ehash x)) evs).
    { intros evs k H He. apply in_app_or in H. destruct H as [H|[<-|[]]]; [left; exact H|right; split; [rewrite X2; reflexivity|exact He]]. }
    destruct p.
    + destruct (t_err x); [|destruct (t_valid x)].
      * injection E as <- <-. apply Z; [reflexivity| |].
        -- intros k H. apply Q; [exact H|]. rewrite X2. left. reflexivity.
        -- cbn. intros t b h [H|[]]. injection H as <- <- <-. auto.
      * cbn [negb] in E. destruct (t_room x <? t_siglen x); [discriminate E|]. injection E as <- <-. apply Z; [reflexivity| |].
        -- intros k H. apply Q; [exact H|]. rewrite X2. right; left. reflexivity.
        -- cbn. intros t b h [H|[H|[]]]; [discriminate H|]. injection H as <- <- <-. auto.
      * injection E as <- <-. apply Z; [reflexivity| |].
        -- intros k H. apply Q; [exact H|]. rewrite X2. left. reflexivity.
        -- cbn. intros t b h [H|[]]. injection H as <- <- <-. auto.
    + destruct (t_err x); [|destruct (t_valid x); [discriminate E|]]; injection E as <- <-;
        (apply Z; [reflexivity|auto|intros t b h []]).
    + injection E as <- <-. apply Z; [reflexivity|auto|intros t b h []].
Qed.

Lemma in_removed : forall A (l : list A) i k, In k (firstn i l ++ skipn (S i) l) -> In k l.
Proof.
  intros A l i k H. apply in_app_or in H. destruct H as [H|H].
  - rewrite <- (firstn_skipn i l). apply in_or_app. left. exact H.
  - rewrite <- (firstn_skipn (S i) l). apply in_or_app. right. exact H.
Qed.

Lemma pull_W : forall n y tr c p y' e, W n y tr -> token_pull y c p = SOk y' e -> W (n + 1) y' (e ++ tr).
Proof.
  intros n y tr c p y' e HW E. unfold token_pull in E.
  destruct (y_pc y c) eqn:Epc; try discriminate E. destruct (y_shared y); [discriminate E|].
  destruct p as [i len| |].
  - destruct (nth_error (y_el3 y) i) as [q|] eqn:Eq; [|discriminate E]. injection E as <- <-.
    apply nth_error_In in Eq. destruct HW as [A B C D F G].
    assert (X : forall t a h, In (EvAsk t a h) ([EvAnswer (q_ticket q) (q_cookie q) (q_hash q)] ++ tr) -> In (EvAsk t a h) tr).
    { intros t a h [H|H]; [discriminate H|exact H]. }
    constructor.
    + cbn. lia.
    + intros t a h H. apply X in H. apply (B t a h), H.
    + intros k H. cbn in H. right. apply C. apply (in_removed _ _ i), H.
    + intros c' H. cbn in H |- *. unfold supd in H |- *. destruct (N.eqb_spec c' c).
      * exists (q_hash q). cbn. split; [reflexivity|]. split; [right; apply C, Eq|left; reflexivity].
      * destruct (D c' H) as (h & H1 & H2 & H3). exists h. split; [exact H1|]. split; right; assumption.
    + intros c' a H. cbn in H |- *. unfold supd in H |- *. destruct (N.eqb_spec c' c); [discriminate H|apply F, H].
    + intros a r H. destruct (G a r H) as [[H1|H1] H2]; split; auto. right. intros t h K. apply (H1 t h), X, K.
  - injection E as <- <-. apply W_pc; auto with signdb; discriminate.
  - injection E as <- <-. apply W_gen with (y := y); try reflexivity; auto with signdb.
    + intros c' H. cbn in H. unfold supd in H. destruct (N.eqb_spec c' c); [discriminate H|exact H].
    + intros c' a' H. cbn in H. unfold supd in H. destruct (N.eqb_spec c' c); [discriminate H|apply (w_crit _ _ _ HW), H].
    + exact (w_rec _ _ _ HW).
Qed.

Lemma step_W : forall n y tr o y' e, W n y tr -> n + 2 < 2 ^ 64 -> sstep y o = SOk y' e -> W (n + 1) y' (e ++ tr).
Proof.
  intros n y tr o y' e HW Hn E. destruct o; cbn [sstep] in E.
  - (* rec_create *)
    unfold rec_create in E. destruct (y_rec y a) eqn:Er; [discriminate E|]. injection E as <- <-.
    apply W_gen with (y := y); try reflexivity; auto with signdb; [exact (w_crit _ _ _ HW)|].
    intros a' r H. cbn in H. unfold supd in H. destruct (N.eqb_spec a' a); [|apply (w_rec _ _ _ HW), H].
    injection H as <-. cbn. split; [left; reflexivity|intros K; exfalso; apply K; reflexivity].
  - unfold rec_destroy in E. split_match E. injection E as <- <-.
    apply W_gen with (y := y); try reflexivity; auto with signdb; [exact (w_crit _ _ _ HW)|].
    intros a' r H. cbn in H. unfold supd in H. destruct (N.eqb_spec a' a); [discriminate H|apply (w_rec _ _ _ HW), H].
  - unfold rec_enter in E. split_match E. injection E as <- <-. eapply set_rec_run_W; eauto.
  - unfold rec_leave in E. split_match E. injection E as <- <-.
    match goal with H : own _ _ = Some _ |- _ => apply own_some in H; destruct H end. eapply set_rec_run_W; eauto.
  - (* token_init *)
    unfold token_init in E. destruct (y_pc y c) eqn:Ep; try discriminate E.
    destruct (own y c) as [[a r]|] eqn:Eo; [|discriminate E]. apply own_some in Eo. destruct Eo.
    destruct (t_state (r_ctx r)); injection E as <- <-; eapply W_upd; eauto with signdb; try discriminate;
      intros _; cbn; (split; [left; reflexivity|intros K; exfalso; apply K; reflexivity]).
  - unfold ctx_init in E. destruct (y_pc y c) eqn:Ep; try discriminate E.
    destruct (own y c) as [[a r]|] eqn:Eo; [|discriminate E]. apply own_some in Eo. destruct Eo. cbv zeta in E.
    split_match E; injection E as <- <-; [eapply W_upd; eauto with signdb; try discriminate; intros _; split; cbn; auto|].
    eapply W_pc; eauto with signdb; discriminate.
  - unfold token_create in E. destruct (y_pc y c) eqn:Ep; try discriminate E.
    destruct (own y c) as [[a r]|] eqn:Eo; [|discriminate E]. apply own_some in Eo. destruct Eo. cbv zeta in E.
    destruct (t_state (r_ctx r)) eqn:Es.
    2: destruct h as [[h n0]|].
    2: injection E as <- <-; eapply W_upd; eauto with signdb; try discriminate; intros [K1 K2]; split; cbn;
       [exact K1|intros _; apply K2; rewrite Es; discriminate].
    all: injection E as <- <-; eapply W_pc; eauto with signdb; discriminate.
  - unfold token_continue in E. split_match E. injection E as <- <-. eapply W_pc; eauto with signdb; discriminate.
  - eapply sign_W; eauto.
  - unfold irq_exit in E. split_match E. injection E as <- <-. eapply W_pc; eauto with signdb; discriminate.
  - eapply pull_W; eauto.
  - (* acquire *)
    unfold acquire in E. destruct (y_pc y c) eqn:Ep; try discriminate E. destruct (y_run y c); [|discriminate E]. cbv zeta in E.
    destruct (y_rec y (p_cookie (y_resp y c))) as [r|] eqn:Er.
    2:{ injection E as <- <-. eapply W_pc; eauto with signdb; discriminate. }
    split_match E; injection E as <- <-;
      (eapply W_upd; eauto with signdb; [cbn; intros; rewrite Ep; reflexivity|cbn; intros b K; injection K as <-; reflexivity]).
  - (* check *)
    unfold check in E. destruct (y_pc y c) eqn:Ep; try discriminate E. cbv zeta in E.
    destruct (y_rec y a) as [r|] eqn:Er; [|discriminate E].
    destruct (N.eqb_spec a (p_cookie (y_resp y c))); [|discriminate E]. cbn [negb] in E.
    assert (B1 : forall p, busy p = true -> busy (y_pc y c) = true) by (intros; rewrite Ep; reflexivity).
    assert (B2 : forall b, crit (PRel a) = Some b -> p_cookie (y_resp y c) = b) by (cbn; intros b K; congruence).
    split_match E; injection E as <- <-; match goal with |- W _ (set_pc (set_rec _ _ _) _ _) _ => eapply W_upd | _ => eapply W_pc end; eauto with signdb;
      cbn; intros b K; congruence.
  - unfold copy in E. destruct (y_pc y c) eqn:Ep; try discriminate E. destruct (y_run y c) as [me|]; [|discriminate E].
    destruct (y_rec y a) as [r|] eqn:Er; [|discriminate E]. cbv zeta in E.
    destruct (t_buf (r_ctx r)); cbn [negb] in E; [|discriminate E].
    match type of E with match y_rec ?z me with _ => _ end = _ => set (y1 := z) in E end.
    destruct (y_rec y1 me) as [m|] eqn:Em; [|discriminate E]. injection E as <- <-.
    apply W_gen with (y := y); try reflexivity; auto with signdb.
    + intros c' H. cbn in H. unfold supd in H. destruct (N.eqb_spec c' c); [subst; rewrite Ep; reflexivity|exact H].
    + intros c' a' H. cbn in H. unfold supd in H. destruct (N.eqb_spec c' c); [|apply (w_crit _ _ _ HW), H].
      subst. apply (w_crit _ _ _ HW). rewrite Ep. exact H.
    + assert (Y : forall a' r', y_rec y1 a' = Some r' -> RW tr a' (r_ctx r')).
      { intros a' r' H. unfold y1 in H. cbn in H. unfold supd in H. destruct (N.eqb_spec a' a); [|apply (w_rec _ _ _ HW), H].
        injection H as <-. subst. exact (w_rec _ _ _ HW _ _ Er). }
      intros a' r' H. cbn in H. unfold supd at 1 in H. destruct (N.eqb_spec a' me); [|apply Y, H].
      injection H as <-. subst. exact (Y _ _ Em).
  - unfold mark in E. destruct (y_pc y c) eqn:Ep; try discriminate E.
    destruct (y_rec y a) as [r|] eqn:Er; [|discriminate E]. injection E as <- <-.
    eapply W_upd; eauto with signdb; [rewrite Ep; reflexivity|].
    cbn. intros b K. injection K as <-. apply (w_crit _ _ _ HW). rewrite Ep. reflexivity.
  - unfold release in E. destruct (y_pc y c) eqn:Ep; try discriminate E. destruct (y_run y c); [|discriminate E].
    destruct (y_rec y a) as [r|] eqn:Er; [|discriminate E]. injection E as <- <-.
    eapply W_upd; eauto with signdb; discriminate.
  - unfold token_out in E. destruct (y_pc y c) eqn:Ep; try discriminate E.
    destruct (own y c) as [[a r]|] eqn:Eo; [|discriminate E]. apply own_some in Eo. destruct Eo.
    destruct (r_len r); [|discriminate E]. cbv zeta in E.
    destruct (t_state (r_ctx r)) eqn:Es.
    4: injection E as <- <-; eapply W_upd; eauto with signdb; try discriminate; intros [K1 K2]; split; cbn;
       [exact K1|intros K; exfalso; apply K; reflexivity].
    all: injection E as <- <-; eapply W_pc; eauto with signdb; discriminate.
Qed.

Lemma step_bad : forall n y tr o b, W n y tr -> sstep y o = SBad b -> b <> BadTicket /\ b <> BadCookie.
Proof.
  intros n y tr o b HW E. destruct o; cbn [sstep] in E.
  1: unfold rec_create in E; split_match E.
  1: unfold rec_destroy in E; split_match E.
  1: unfold rec_enter in E; split_match E.
  1: unfold rec_leave in E; split_match E.
  1: unfold token_init in E; split_match E.
  1: unfold ctx_init in E; cbv zeta in E; split_match E.
  1: unfold token_create in E; cbv zeta in E; split_match E.
  1: unfold token_continue in E; split_match E.
  1: { unfold token_sign in E. destruct (y_pc y c); try discriminate E. destruct (own y c) as [[a0 r0]|]; [|discriminate E].
       destruct (r_len r0); [discriminate E|]. destruct (t_state (r_ctx r0)); try discriminate E.
       destruct (t_lock (r_ctx r0)); [discriminate E|]. cbv zeta in E.
       set (x := if t_started (r_ctx r0) then r_ctx r0 else _) in E. clearbody x.
       destruct (if t_queued x then _ else enqueue y x r) as [[[[tk q] t] en]|]; [|discriminate E].
       split_match E; injection E as <-; split; discriminate. }
  1: unfold irq_exit in E; split_match E.
  1: unfold token_pull in E; split_match E.
  1: unfold acquire in E; cbv zeta in E; split_match E.
  - unfold check in E. destruct (y_pc y c) eqn:Ep; try discriminate E. cbv zeta in E.
    destruct (y_rec y a) as [r|] eqn:Er; [|discriminate E].
    pose proof (w_crit _ _ _ HW c a) as HC. rewrite Ep in HC. specialize (HC eq_refl).
    destruct (w_resp _ _ _ HW c) as (h & H1 & H2 & H3); [rewrite Ep; reflexivity|].
    rewrite HC in H2. destruct (w_rec _ _ _ HW a r Er) as [HR _].
    rewrite HC, N.eqb_refl in E. cbn [negb] in E. exfalso.
    split_match E.
    apply orb_false_iff in E1. destruct E1 as [E1 E2].
    apply N.eqb_neq in E1. apply N.leb_gt in E2. destruct HR as [HR|HR]; [exact (E1 HR)|].
    apply HR in H2. clear - H2 E2. lia.
  - unfold copy in E. cbv zeta in E. split_match E. injection E as <-. split; discriminate.
  - unfold mark in E. cbv zeta in E. split_match E.
  - unfold release in E. cbv zeta in E. split_match E.
  - unfold token_out in E. cbv zeta in E. split_match E.
Qed.

Lemma run_W : forall l n y tr, W n y tr -> n + N.of_nat (length l) + 1 < 2 ^ 64 ->
  match srun y tr l with
  | inl b => b <> BadTicket /\ b <> BadCookie
  | inr (y', tr') => W (n + N.of_nat (length l)) y' tr'
  end.
Proof.
  induction l as [|o l IH]; intros n y tr HW Hn.
  - cbn [srun length N.of_nat]. rewrite N.add_0_r. exact HW.
  - cbn [srun]. cbn [length] in *. rewrite Nat2N.inj_succ in *.
    assert (M : W (n + 1) y tr) by (destruct HW; constructor; auto; lia).
    replace (n + N.succ (N.of_nat (length l))) with (n + 1 + N.of_nat (length l)) in * by lia.
    destruct (sstep y o) as [|b|y' e] eqn:E.
    + apply IH; [exact M|exact Hn].
    + eapply step_bad; eauto.
    + apply IH; [|exact Hn]. eapply step_W; eauto. lia.
Qed.
