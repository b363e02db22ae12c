(** Token signing by EL3, when no token is started in a REC while an answer is written to it. *)
From Coq Require Import NArith List Bool Lia ZifyBool ZifyN.
From Verif Require Import El3Sign SpecEl3Sign El3SignFacts.
Import ListNotations.
Local Open Scope N_scope.

Record RJ (tr : list sev) (a : N) (x : tctx) : Prop := mkRJ {
  rj_queued : t_queued x = true -> asked a tr = Some (t_ticket x, t_ehash x) /\ t_ehash x = t_hash x /\
    t_buf x = true /\ t_started x = true /\ t_state x <> GInit;
  rj_init : t_state x = GInit -> t_ticket x = 0;
  rj_ticket : forall t h, In (EvAsk t a h) tr -> t = t_ticket x -> t_queued x = true /\ asked a tr = Some (t, h);
  rj_valid : t_valid x = true -> t_queued x = true /\ In (EvAnswer (t_ticket x) a (t_ehash x)) tr;
  rj_err : t_err x = true -> t_queued x = true;
  rj_started : t_started x = true -> t_state x = GSign -> t_ehash x = t_hash x /\ t_buf x = true /\ t_siglen x <= t_room x
}.
Record J (y : ssys) (tr : list sev) : Prop := mkJ {
  j_run : forall c a, y_run y c = Some a -> exists r, y_rec y a = Some r /\ r_run r = Some c;
  j_idle : forall c, y_run y c = None -> y_pc y c = PIdle;
  j_lock : forall c a, crit (y_pc y c) = Some a -> exists r, y_rec y a = Some r /\ t_lock (r_ctx r) = true /\
    (y_run y c = Some a \/ r_glock r = true);
  j_one : forall c c' a, crit (y_pc y c) = Some a -> crit (y_pc y c') = Some a -> c = c';
  j_copy : forall c a r, y_pc y c = PCopy a -> y_rec y a = Some r ->
    t_ticket (r_ctx r) = p_ticket (y_resp y c) /\ p_len (y_resp y c) <= t_siglen (r_ctx r);
  j_mark : forall c a r, y_pc y c = PMark a -> y_rec y a = Some r -> t_ticket (r_ctx r) = p_ticket (y_resp y c);
  j_rec : forall a r, y_rec y a = Some r -> RJ tr a (r_ctx r)
}.

Lemma J_0 : J ssys0 [].
Proof. constructor; cbn; intros; try discriminate; auto. Qed.

Lemma RJ_other : forall tr e a x, RJ tr a x -> asked a (e ++ tr) = asked a tr -> (forall t h, ~ In (EvAsk t a h) e) -> RJ (e ++ tr) a x.
Proof.
  intros tr e a x [A B C D X F] E1 E2. constructor; rewrite ?E1; auto.
  - intros t h H. apply in_app_or in H. destruct H as [H|H]; [exfalso; exact (E2 _ _ H)|apply C, H].
  - intros H. destruct (D H) as [D1 D2]. split; [exact D1|]. apply in_or_app. right. exact D2.
Qed.

(** One step of CPU [c], which may change REC [a] *)
Record upd_by (y y' : ssys) (c : N) (p : spc) (a : N) (r : srec) : Prop := mkUpd {
  u_rec : y_rec y' a = Some r;
  u_recs : forall b, b <> a -> y_rec y' b = y_rec y b;
  u_pc : y_pc y' c = p;
  u_pcs : forall c', c' <> c -> y_pc y' c' = y_pc y c';
  u_resp : forall c', c' <> c -> y_resp y' c' = y_resp y c';
  u_run : forall c', y_run y' c' = y_run y c'
}.
Lemma J_upd : forall y tr y' e c p a r0 r, J y tr -> upd_by y y' c p a r -> y_rec y a = Some r0 ->
  (y_run y c = None -> p = PIdle) -> r_run r = r_run r0 ->
  (forall b, b <> a -> asked b (e ++ tr) = asked b tr /\ forall t h, ~ In (EvAsk t b h) e) ->
  (forall c', c' <> c -> crit (y_pc y c') = Some a ->
     t_lock (r_ctx r) = true /\ t_ticket (r_ctx r) = t_ticket (r_ctx r0) /\ t_siglen (r_ctx r) = t_siglen (r_ctx r0) /\
     (r_glock r0 = true -> r_glock r = true)) ->
  (forall b, crit p = Some b -> b = a /\ t_lock (r_ctx r) = true /\ (y_run y c = Some a \/ r_glock r = true) /\
     forall c', c' <> c -> crit (y_pc y c') <> Some a) ->
  (p = PCopy a -> t_ticket (r_ctx r) = p_ticket (y_resp y' c) /\ p_len (y_resp y' c) <= t_siglen (r_ctx r)) ->
  (p = PMark a -> t_ticket (r_ctx r) = p_ticket (y_resp y' c)) ->
  RJ (e ++ tr) a (r_ctx r) -> J y' (e ++ tr).
Proof.
  intros y tr y' e c p a r0 r HJ [U1 U2 U3 U4 U5 U6] H0 Hp Hrun He Hk Hc Hcopy Hmark HR.
  constructor.
  - intros c' b H. rewrite U6 in H. destruct (j_run _ _ HJ c' b H) as (q & Q1 & Q2).
    destruct (N.eq_dec b a) as [->|n].
    + exists r. split; [exact U1|]. rewrite Hrun. congruence.
    + exists q. rewrite U2 by exact n. auto.
  - intros c' H. rewrite U6 in H. destruct (N.eq_dec c' c) as [->|n].
    + rewrite U3. apply Hp, H.
    + rewrite U4 by exact n. apply (j_idle _ _ HJ), H.
  - intros c' b H. rewrite U6. destruct (N.eq_dec c' c) as [->|n].
    + rewrite U3 in H. destruct (Hc b H) as (-> & L1 & L2 & _). exists r. auto.
    + rewrite U4 in H by exact n. destruct (j_lock _ _ HJ c' b H) as (q & Q1 & Q2 & Q3).
      destruct (N.eq_dec b a) as [->|n'].
      * exists r. destruct (Hk c' n H) as (K1 & K2 & K3 & K4). split; [exact U1|]. split; [exact K1|].
        destruct Q3 as [Q3|Q3]; [left; exact Q3|right]. apply K4. congruence.
      * exists q. rewrite U2 by exact n'. auto.
  - intros c1 c2 b H1 H2. destruct (N.eq_dec c1 c) as [->|n1]; destruct (N.eq_dec c2 c) as [->|n2]; auto.
    + rewrite U3 in H1. rewrite U4 in H2 by exact n2. destruct (Hc b H1) as (-> & _ & _ & L). exfalso. exact (L c2 n2 H2).
    + rewrite U3 in H2. rewrite U4 in H1 by exact n1. destruct (Hc b H2) as (-> & _ & _ & L). exfalso. exact (L c1 n1 H1).
    + rewrite U4 in H1, H2 by assumption. exact (j_one _ _ HJ _ _ _ H1 H2).
  - intros c' b q H1 H2. destruct (N.eq_dec c' c) as [->|n].
    + rewrite U3 in H1. destruct (Hc b) as (-> & _); [rewrite H1; reflexivity|]. rewrite U1 in H2. injection H2 as <-. apply Hcopy, H1.
    + rewrite U4 in H1 by exact n. rewrite U5 by exact n. destruct (N.eq_dec b a) as [->|n'].
      * rewrite U1 in H2. injection H2 as <-. destruct (Hk c' n) as (K1 & K2 & K3 & K4); [rewrite H1; reflexivity|].
        rewrite K2, K3. exact (j_copy _ _ HJ c' a r0 H1 H0).
      * rewrite U2 in H2 by exact n'. exact (j_copy _ _ HJ c' b q H1 H2).
  - intros c' b q H1 H2. destruct (N.eq_dec c' c) as [->|n].
    + rewrite U3 in H1. destruct (Hc b) as (-> & _); [rewrite H1; reflexivity|]. rewrite U1 in H2. injection H2 as <-. apply Hmark, H1.
    + rewrite U4 in H1 by exact n. rewrite U5 by exact n. destruct (N.eq_dec b a) as [->|n'].
      * rewrite U1 in H2. injection H2 as <-. destruct (Hk c' n) as (K1 & K2 & K3 & K4); [rewrite H1; reflexivity|].
        rewrite K2. exact (j_mark _ _ HJ c' a r0 H1 H0).
      * rewrite U2 in H2 by exact n'. exact (j_mark _ _ HJ c' b q H1 H2).
  - intros b q H. destruct (N.eq_dec b a) as [->|n].
    + rewrite U1 in H. injection H as <-. exact HR.
    + rewrite U2 in H by exact n. destruct (He b n). apply RJ_other; auto. exact (j_rec _ _ HJ b q H).
Qed.

Lemma upd_intro : forall y c p a r, upd_by y (set_pc (set_rec y a (Some r)) c p) c p a r.
Proof.
  intros. constructor; cbn; intros; rewrite ?supd_eq, ?supd_ne by assumption; reflexivity.
Qed.
Lemma upd_intro_pc : forall y c p a r, y_rec y a = Some r -> upd_by y (set_pc y c p) c p a r.
Proof.
  intros. constructor; cbn; intros; rewrite ?supd_eq, ?supd_ne by assumption; auto.
Qed.

Lemma no_crit : forall y tr c a r, J y tr -> y_rec y a = Some r -> t_lock (r_ctx r) = false -> crit (y_pc y c) <> Some a.
Proof.
  intros y tr c a r HJ Hr Hl H. destruct (j_lock _ _ HJ c a H) as (q & Q1 & Q2 & _). congruence.
Qed.

(** Events that say nothing about requests *)
Definition plain (e : list sev) : Prop := forall v, In v e -> match v with EvSigned _ _ | EvToken _ _ _ | EvAnswer _ _ _ => True | _ => False end.
Lemma plain_asked : forall e tr a, plain e -> asked a (e ++ tr) = asked a tr.
Proof.
  induction e as [|v e IH]; intros tr a H; [reflexivity|].
  assert (H' : plain e) by (intros w K; apply H; right; exact K).
  assert (Hv := H v (or_introl eq_refl)). cbn [app asked]. destruct v; try contradiction; apply IH, H'.
Qed.
Lemma plain_no_ask : forall e a t h, plain e -> ~ In (EvAsk t a h) e.
Proof. intros e a t h H K. exact (H _ K). Qed.
Lemma plain_nil : plain [].
Proof. intros v []. Qed.
Lemma plain_other : forall e tr b, plain e -> asked b (e ++ tr) = asked b tr /\ forall t h, ~ In (EvAsk t b h) e.
Proof. intros. split; [apply plain_asked; assumption|intros; apply plain_no_ask; assumption]. Qed.
Lemma RJ_plain : forall tr e a x, RJ tr a x -> plain e -> RJ (e ++ tr) a x.
Proof. intros. destruct (plain_other e tr a H0). apply RJ_other; auto. Qed.

(** CPU [c] goes on without holding a lock and nothing else changes *)
Lemma J_pc : forall y tr e c p, J y tr -> plain e -> crit p = None -> y_run y c <> None \/ p = PIdle ->
  J (set_pc y c p) (e ++ tr).
Proof.
  intros y tr e c p HJ He Hp Hr. constructor; cbn.
  - exact (j_run _ _ HJ).
  - intros c' H. unfold supd. destruct (N.eqb_spec c' c); [subst; destruct Hr; congruence|apply (j_idle _ _ HJ), H].
  - intros c' a H. unfold supd in H. destruct (N.eqb_spec c' c); [congruence|apply (j_lock _ _ HJ), H].
  - intros c1 c2 a H1 H2. unfold supd in H1, H2. destruct (N.eqb_spec c1 c), (N.eqb_spec c2 c); try congruence.
    exact (j_one _ _ HJ _ _ _ H1 H2).
  - intros c' a r H. unfold supd in H. destruct (N.eqb_spec c' c); [subst; discriminate|apply (j_copy _ _ HJ), H].
  - intros c' a r H. unfold supd in H. destruct (N.eqb_spec c' c); [subst; discriminate|apply (j_mark _ _ HJ), H].
  - intros a r H. apply RJ_plain; [apply (j_rec _ _ HJ), H|exact He].
Qed.

(** Only the buffer of a REC changes *)
Lemma J_buf : forall y tr a r b, J y tr -> y_rec y a = Some r ->
  J (set_rec y a (Some (mkSrec (r_run r) (r_glock r) (r_len r) b (r_ctx r)))) tr.
Proof.
  intros y tr a r b HJ Hr. destruct HJ as [A B C D F G I].
  assert (X : forall a' r', supd (y_rec y) a (Some (mkSrec (r_run r) (r_glock r) (r_len r) b (r_ctx r))) a' = Some r' ->
    exists q, y_rec y a' = Some q /\ r_ctx q = r_ctx r').
  { intros a' r' H. unfold supd in H. destruct (N.eqb_spec a' a); [|eauto]. injection H as <-. subst. eauto. }
  assert (Y : forall a' q, y_rec y a' = Some q -> exists r', supd (y_rec y) a (Some (mkSrec (r_run r) (r_glock r) (r_len r) b (r_ctx r))) a' = Some r' /\
    r_ctx r' = r_ctx q /\ r_run r' = r_run q /\ r_glock r' = r_glock q).
  { intros a' q H. unfold supd. destruct (N.eqb_spec a' a); [|eauto]. subst. assert (q = r) by congruence. subst q.
    eexists. split; [reflexivity|]. auto. }
  constructor; cbn.
  - intros c' a' H. destruct (A c' a' H) as (q & Q1 & Q2). destruct (Y a' q Q1) as (r' & Y1 & Y2 & Y3 & Y4). exists r'. split; congruence.
  - exact B.
  - intros c' a' H. destruct (C c' a' H) as (q & Q1 & Q2 & Q3). destruct (Y a' q Q1) as (r' & Y1 & Y2 & Y3 & Y4). exists r'.
    rewrite Y1, Y2, Y4. auto.
  - exact D.
  - intros c' a' r' H1 H2. destruct (X a' r' H2) as (q & Q1 & Q2). rewrite <- Q2. exact (F c' a' q H1 Q1).
  - intros c' a' r' H1 H2. destruct (X a' r' H2) as (q & Q1 & Q2). rewrite <- Q2. exact (G c' a' q H1 Q1).
  - intros a' r' H2. destruct (X a' r' H2) as (q & Q1 & Q2). rewrite <- Q2. exact (I a' q Q1).
Qed.

Lemma new_other : forall a b tr, b <> a -> asked b ([EvNew a] ++ tr) = asked b tr /\ forall t h, ~ In (EvAsk t b h) [EvNew a].
Proof.
  intros a b tr H. cbn. destruct (N.eqb_spec a b); [congruence|]. split; [reflexivity|]. intros t h [K|[]]. discriminate K.
Qed.
(** A context without a request *)
Lemma RJ_fresh : forall n y tr a x, W n y tr -> t_ticket x = 0 -> t_queued x = false -> t_valid x = false -> t_err x = false ->
  (t_started x = true -> t_state x <> GSign) -> RJ ([EvNew a] ++ tr) a x /\ RJ tr a x.
Proof.
  intros n y tr a x HW H1 H2 H3 H5 H4. 
  assert (Z : forall t h, In (EvAsk t a h) tr -> t <> t_ticket x).
  { intros t h K. apply (w_ask _ _ _ HW) in K. lia. }
  split; constructor; try (intros; congruence).
  - intros t h [K|K] Et; [discriminate K|exfalso; exact (Z t h K Et)].
  - intros K1 K2. exfalso. exact (H4 K1 K2).
  - intros t h K Et. exfalso; exact (Z t h K Et).
  - intros K1 K2. exfalso. exact (H4 K1 K2).
Qed.

Lemma step_J : forall n y tr o y' e, W n y tr -> J y tr -> n + 2 < 2 ^ 64 ->
  match o with STokenInit c => match own y c with Some (_, r) => negb (t_lock (r_ctx r)) | None => true end | _ => true end = true ->
  sstep y o = SOk y' e -> J y' (e ++ tr).
Proof.
  intros n y tr o y' e HW HJ Hn Hcalm E. destruct o; cbn [sstep] in E.
  - (* rec_create *)
    unfold rec_create in E. destruct (y_rec y a) eqn:Er; [discriminate E|]. injection E as <- <-.
    assert (X : forall c', y_run y c' <> Some a).
    { intros c' K. destruct (j_run _ _ HJ c' a K) as (r & R & _). congruence. }
    assert (X' : forall c', crit (y_pc y c') <> Some a).
    { intros c' K. destruct (j_lock _ _ HJ c' a K) as (r & R & _). congruence. }
    constructor; cbn; intros.
    + destruct (N.eq_dec a0 a) as [->|ne]; [exfalso; exact (X _ H)|]. rewrite supd_ne by exact ne. apply (j_run _ _ HJ), H.
    + apply (j_idle _ _ HJ), H.
    + destruct (N.eq_dec a0 a) as [->|ne]; [exfalso; exact (X' _ H)|]. rewrite supd_ne by exact ne. apply (j_lock _ _ HJ), H.
    + exact (j_one _ _ HJ _ _ _ H H0).
    + destruct (N.eq_dec a0 a) as [->|ne]; [exfalso; apply (X' c); rewrite H; reflexivity|].
      rewrite supd_ne in H0 by exact ne. exact (j_copy _ _ HJ _ _ _ H H0).
    + destruct (N.eq_dec a0 a) as [->|ne]; [exfalso; apply (X' c); rewrite H; reflexivity|].
      rewrite supd_ne in H0 by exact ne. exact (j_mark _ _ HJ _ _ _ H H0).
    + destruct (N.eq_dec a0 a) as [->|ne].
      * rewrite supd_eq in H. injection H as <-. cbn. change (EvNew a :: tr) with ([EvNew a] ++ tr).
        apply (RJ_fresh n y tr a tctx0 HW); try reflexivity. cbn. discriminate.
      * rewrite supd_ne in H by exact ne. change (EvNew a :: tr) with ([EvNew a] ++ tr). destruct (new_other a a0 tr ne).
        apply RJ_other; auto. apply (j_rec _ _ HJ), H.
  - (* rec_destroy *)
    unfold rec_destroy in E. destruct (y_rec y a) as [r|] eqn:Er; [|discriminate E].
    destruct (r_run r) eqn:Err; [discriminate E|]. destruct (r_glock r) eqn:Eg; [discriminate E|]. injection E as <- <-.
    assert (X : forall c', y_run y c' <> Some a).
    { intros c' K. destruct (j_run _ _ HJ c' a K) as (r' & R & R'). congruence. }
    assert (X' : forall c', crit (y_pc y c') <> Some a).
    { intros c' K. destruct (j_lock _ _ HJ c' a K) as (r' & R & _ & R'). destruct R' as [R'|R']; [exact (X _ R')|congruence]. }
    constructor; cbn; intros.
    + destruct (N.eq_dec a0 a) as [->|ne]; [exfalso; exact (X _ H)|]. rewrite supd_ne by exact ne. apply (j_run _ _ HJ), H.
    + apply (j_idle _ _ HJ), H.
    + destruct (N.eq_dec a0 a) as [->|ne]; [exfalso; exact (X' _ H)|]. rewrite supd_ne by exact ne. apply (j_lock _ _ HJ), H.
    + exact (j_one _ _ HJ _ _ _ H H0).
    + destruct (N.eq_dec a0 a) as [->|ne]; [exfalso; apply (X' c); rewrite H; reflexivity|].
      rewrite supd_ne in H0 by exact ne. exact (j_copy _ _ HJ _ _ _ H H0).
    + destruct (N.eq_dec a0 a) as [->|ne]; [exfalso; apply (X' c); rewrite H; reflexivity|].
      rewrite supd_ne in H0 by exact ne. exact (j_mark _ _ HJ _ _ _ H H0).
    + destruct (N.eq_dec a0 a) as [->|ne]; [rewrite supd_eq in H; discriminate H|].
      rewrite supd_ne in H by exact ne. apply (j_rec _ _ HJ), H.
  - (* rec_enter *)
    unfold rec_enter in E. destruct (y_rec y a) as [r|] eqn:Er; [|discriminate E].
    destruct (y_pc y c) eqn:Ep; try discriminate E. destruct (y_run y c) eqn:Erun; [discriminate E|].
    destruct (r_run r) eqn:Err; [discriminate E|]. destruct (r_glock r) eqn:Eg; [discriminate E|]. injection E as <- <-.
    assert (X : forall c', y_run y c' <> Some a).
    { intros c' K. destruct (j_run _ _ HJ c' a K) as (r' & R & R'). congruence. }
    assert (X' : forall c', crit (y_pc y c') <> Some a).
    { intros c' K. destruct (j_lock _ _ HJ c' a K) as (r' & R & _ & R'). destruct R' as [R'|R']; [exact (X _ R')|congruence]. }
    constructor; cbn; intros.
    + destruct (N.eq_dec c0 c) as [->|nc].
      * rewrite supd_eq in H. injection H as <-. rewrite supd_eq. eexists. split; [reflexivity|reflexivity].
      * rewrite supd_ne in H by exact nc. destruct (N.eq_dec a0 a) as [->|ne]; [exfalso; exact (X _ H)|].
        rewrite supd_ne by exact ne. apply (j_run _ _ HJ), H.
    + destruct (N.eq_dec c0 c) as [->|nc]; [exact Ep|]. rewrite supd_ne in H by exact nc. apply (j_idle _ _ HJ), H.
    + destruct (N.eq_dec a0 a) as [->|ne]; [exfalso; exact (X' _ H)|]. rewrite (supd_ne _ (y_rec y)) by exact ne.
      destruct (N.eq_dec c0 c) as [->|nc]; [rewrite Ep in H; discriminate H|]. rewrite supd_ne by exact nc. apply (j_lock _ _ HJ), H.
    + exact (j_one _ _ HJ _ _ _ H H0).
    + destruct (N.eq_dec a0 a) as [->|ne]; [exfalso; apply (X' c0); rewrite H; reflexivity|].
      rewrite supd_ne in H0 by exact ne. exact (j_copy _ _ HJ _ _ _ H H0).
    + destruct (N.eq_dec a0 a) as [->|ne]; [exfalso; apply (X' c0); rewrite H; reflexivity|].
      rewrite supd_ne in H0 by exact ne. exact (j_mark _ _ HJ _ _ _ H H0).
    + destruct (N.eq_dec a0 a) as [->|ne].
      * rewrite supd_eq in H. injection H as <-. exact (j_rec _ _ HJ a r Er).
      * rewrite supd_ne in H by exact ne. apply (j_rec _ _ HJ), H.
  - (* rec_leave *)
    unfold rec_leave in E. destruct (y_pc y c) eqn:Ep; try discriminate E.
    destruct (own y c) as [[a r]|] eqn:Eo; [|discriminate E]. apply own_some in Eo. destruct Eo as [Erun Er]. injection E as <- <-.
    destruct (j_run _ _ HJ c a Erun) as (r' & R & R'). assert (r' = r) by congruence. subst r'.
    constructor; cbn; intros.
    + destruct (N.eq_dec c0 c) as [->|nc]; [rewrite supd_eq in H; discriminate H|].
      rewrite supd_ne in H by exact nc. destruct (j_run _ _ HJ c0 a0 H) as (q & Q & Q').
      destruct (N.eq_dec a0 a) as [->|ne]; [exfalso; congruence|]. rewrite supd_ne by exact ne. exists q. auto.
    + destruct (N.eq_dec c0 c) as [->|nc]; [exact Ep|]. rewrite supd_ne in H by exact nc. apply (j_idle _ _ HJ), H.
    + destruct (N.eq_dec c0 c) as [->|nc]; [rewrite Ep in H; discriminate H|]. rewrite (supd_ne _ (y_run y)) by exact nc.
      destruct (j_lock _ _ HJ c0 a0 H) as (q & Q1 & Q2 & Q3).
      destruct (N.eq_dec a0 a) as [->|ne]; [|rewrite supd_ne by exact ne; eauto].
      rewrite supd_eq. eexists. split; [reflexivity|]. cbn. assert (q = r) by congruence. subst q. auto.
    + exact (j_one _ _ HJ _ _ _ H H0).
    + destruct (N.eq_dec a0 a) as [->|ne].
      * rewrite supd_eq in H0. injection H0 as <-. exact (j_copy _ _ HJ _ _ _ H Er).
      * rewrite supd_ne in H0 by exact ne. exact (j_copy _ _ HJ _ _ _ H H0).
    + destruct (N.eq_dec a0 a) as [->|ne].
      * rewrite supd_eq in H0. injection H0 as <-. exact (j_mark _ _ HJ _ _ _ H Er).
      * rewrite supd_ne in H0 by exact ne. exact (j_mark _ _ HJ _ _ _ H H0).
    + destruct (N.eq_dec a0 a) as [->|ne].
      * rewrite supd_eq in H. injection H as <-. exact (j_rec _ _ HJ a r Er).
      * rewrite supd_ne in H by exact ne. apply (j_rec _ _ HJ), H.
  - (* token_init *)
    unfold token_init in E. destruct (y_pc y c) eqn:Ep; try discriminate E.
    destruct (own y c) as [[a r]|] eqn:Eo; [|discriminate E]. apply own_some in Eo. destruct Eo as [Erun Er].
    apply negb_true_iff in Hcalm. assert (NC := fun c' => no_crit y tr c' a r HJ Er Hcalm).
    pose proof (j_rec _ _ HJ a r Er) as [A B C D X F].
    destruct (t_state (r_ctx r)) eqn:Es; injection E as <- <-;
      (eapply J_upd; [exact HJ|apply upd_intro|exact Er|congruence|reflexivity|intros b Hb; apply new_other, Hb
        |intros c' Hc' K; exfalso; exact (NC c' K)|cbn; discriminate|discriminate|discriminate|]); cbn [r_ctx].
    1, 3, 4: apply (RJ_fresh n y tr a tctx0 HW); try reflexivity; cbn; discriminate.
    apply (RJ_fresh n y tr a (r_ctx r) HW); auto.
    + destruct (t_queued (r_ctx r)) eqn:Q; [|reflexivity]. destruct (A eq_refl) as (_ & _ & _ & _ & K). congruence.
    + destruct (t_valid (r_ctx r)) eqn:V; [|reflexivity]. destruct (D eq_refl) as [Q _]. destruct (A Q) as (_ & _ & _ & _ & K). congruence.
    + destruct (t_err (r_ctx r)) eqn:V; [|reflexivity]. destruct (A (X eq_refl)) as (_ & _ & _ & _ & K). congruence.
    + congruence.
  - (* ctx_init *)
    unfold ctx_init in E. destruct (y_pc y c) eqn:Ep; try discriminate E.
    destruct (own y c) as [[a r]|] eqn:Eo; [|discriminate E]. apply own_some in Eo. destruct Eo as [Erun Er]. cbv zeta in E.
    destruct heap.
    2:{ injection E as <- <-. apply J_pc; auto using plain_nil. }
    destruct (t_lock (r_ctx r)) eqn:El; [discriminate E|]. injection E as <- <-.
    assert (NC := fun c' => no_crit y tr c' a r HJ Er El).
    eapply J_upd; [exact HJ|apply upd_intro|exact Er|congruence|reflexivity|intros b Hb; apply plain_other, plain_nil
        |intros c' Hc' K; exfalso; exact (NC c' K)|cbn; discriminate|discriminate|discriminate|].
    cbn [r_ctx set_ctx app]. match goal with |- RJ _ _ ?x => apply (RJ_fresh n y tr a x HW) end; try reflexivity. cbn. discriminate.
  - (* token_create *)
    unfold token_create in E. destruct (y_pc y c) eqn:Ep; try discriminate E.
    destruct (own y c) as [[a r]|] eqn:Eo; [|discriminate E]. apply own_some in Eo. destruct Eo as [Erun Er]. cbv zeta in E.
    pose proof (j_rec _ _ HJ a r Er) as [A B C D X F].
    destruct (t_state (r_ctx r)) eqn:Es.
    2: destruct h as [[h n0]|].
    1, 3, 4, 5: injection E as <- <-; apply J_pc; auto using plain_nil.
    injection E as <- <-.
    assert (Q : t_queued (r_ctx r) = false).
    { destruct (t_queued (r_ctx r)); [|reflexivity]. destruct (A eq_refl) as (_ & _ & _ & _ & K). congruence. }
    assert (V : t_valid (r_ctx r) = false).
    { destruct (t_valid (r_ctx r)); [|reflexivity]. destruct (D eq_refl). congruence. }
    assert (V' : t_err (r_ctx r) = false).
    { destruct (t_err (r_ctx r)); [|reflexivity]. specialize (X eq_refl). congruence. }
    eapply J_upd; [exact HJ|apply upd_intro|exact Er|auto|reflexivity|intros b Hb; apply plain_other, plain_nil
        | |cbn; discriminate|discriminate|discriminate|].
    + intros c' Hc' K. destruct (j_lock _ _ HJ c' a K) as (q & Q1 & Q2 & Q3). assert (q = r) by congruence. subst q. cbn. auto.
    + cbn [r_ctx set_ctx app]. match goal with |- RJ _ _ ?x => apply (RJ_fresh n y tr a x HW) end; cbn; auto. discriminate.
  - (* token_continue *)
    unfold token_continue in E. destruct (y_pc y c) eqn:Ep; try discriminate E.
    destruct (own y c) as [[a r]|] eqn:Eo; [|discriminate E]. apply own_some in Eo. destruct Eo as [Erun Er].
    injection E as <- <-. apply J_pc; auto using plain_nil. left. congruence.
  - (* token_sign *)
    unfold token_sign in E. destruct (y_pc y c) eqn:Ep; try discriminate E.
    destruct (own y c) as [[a q]|] eqn:Eo; [|discriminate E]. apply own_some in Eo. destruct Eo as [Erun Er].
    destruct (r_len q); [discriminate E|].
    destruct (t_state (r_ctx q)) eqn:Es.
    1, 2, 4: injection E as <- <-; apply J_pc; auto using plain_nil.
    destruct (t_lock (r_ctx q)) eqn:El; [discriminate E|].
    assert (NC := fun c' => no_crit y tr c' a q HJ Er El).
    pose proof (j_rec _ _ HJ a q Er) as [A B C D XE F]. cbv zeta in E.
    destruct (w_rec _ _ _ HW a q Er) as [_ HC]. rewrite Es in HC. specialize (HC ltac:(discriminate)).
    set (x := if t_started (r_ctx q) then r_ctx q else _) in E.
    assert (X : t_ticket x = t_ticket (r_ctx q) /\ t_queued x = t_queued (r_ctx q) /\ t_valid x = t_valid (r_ctx q) /\ t_err x = t_err (r_ctx q) /\
                t_hash x = t_hash (r_ctx q) /\ t_room x = t_room (r_ctx q) /\ t_cookie x = a /\ t_ehash x = t_hash x /\ t_buf x = true /\ t_siglen x <= t_room x /\
                (t_queued x = true -> t_started x = true /\ t_ehash x = t_ehash (r_ctx q))).
    { unfold x. destruct (t_started (r_ctx q)) eqn:Est.
      - destruct (F eq_refl Es) as (F1 & F2 & F3). repeat split; auto.
      - cbn. repeat split; auto; try lia; intro Q; exfalso; destruct (A Q) as (_ & _ & _ & K & _); congruence. }
    clearbody x. destruct X as (X1 & X2 & X3 & XE' & X4 & X5 & X6 & X7 & X8 & X9 & X10).
    assert (FIN : forall tk sh qs len st s pc evs t qd,
      busy pc = false -> (st = GSign \/ st = GCreate) ->
      (s = true \/ qd = false) ->
      (forall b, b <> a -> asked b (evs ++ tr) = asked b tr /\ forall t h, ~ In (EvAsk t b h) evs) ->
      (qd = true -> asked a (evs ++ tr) = Some (t, t_ehash x)) ->
      (forall t' h, In (EvAsk t' a h) (evs ++ tr) -> t' = t -> qd = true /\ asked a (evs ++ tr) = Some (t', h)) ->
      (t_valid x = true -> qd = true /\ In (EvAnswer t a (t_ehash x)) (evs ++ tr)) -> (t_err x = true -> qd = true) ->
      J (set_pc (mkSsys tk sh qs (y_resp y) (y_pc y) (y_run y)
                 (supd (y_rec y) a (Some (mkSrec (r_run q) (r_glock q) len (r_buf q)
                   (mkTctx st (t_hash x) (t_room x) s false qd (t_valid x) (t_err x) (t_alg x) (t_cookie x) t
                           (t_siglen x) (t_buf x) (t_ehash x)))))) c pc) (evs ++ tr)).
    { intros tk sh qs len st s pc evs t qd Hb Hst Hs Ho Hq Ht Hv Hx.
      eapply J_upd with (p := pc) (a := a) (c := c); [exact HJ| |exact Er|congruence| |exact Ho|intros c' _ K; exfalso; exact (NC c' K)| | | |].
      - constructor; cbn; intros; rewrite ?supd_eq, ?supd_ne by assumption; reflexivity.
      - reflexivity.
      - intros b K. unfold busy in Hb. rewrite K in Hb. destruct pc; discriminate.
      - intros ->. discriminate Hb.
      - intros ->. discriminate Hb.
      - cbn [r_ctx]. constructor; cbn; auto.
        + intros K. split; [auto|]. split; [exact X7|]. split; [exact X8|]. destruct Hs as [Hs|Hs]; [|congruence].
          split; [exact Hs|]. destruct Hst; congruence.
        + destruct Hst; congruence. }
    destruct (t_queued x) eqn:Eq.
    + destruct (X10 eq_refl) as [Y1 Y2]. destruct (A (eq_sym X2)) as (A1 & A2 & A3 & A4 & A5).
      assert (G : forall len st pc evs, busy pc = false -> (st = GSign \/ st = GCreate) -> plain evs ->
        J (set_pc (mkSsys (y_ticket y) (y_shared y) (y_el3 y) (y_resp y) (y_pc y) (y_run y)
                 (supd (y_rec y) a (Some (mkSrec (r_run q) (r_glock q) len (r_buf q)
                   (mkTctx st (t_hash x) (t_room x) true false true (t_valid x) (t_err x) (t_alg x) (t_cookie x) (t_ticket x)
                           (t_siglen x) (t_buf x) (t_ehash x)))))) c pc) (evs ++ tr)).
      { intros len st pc evs H1 H2 H3. apply FIN; auto.
        - intros b _. apply plain_other, H3.
        - intros _. rewrite plain_asked by exact H3. rewrite X1, Y2. exact A1.
        - intros t' h K Kt. split; [reflexivity|]. rewrite plain_asked by exact H3.
          apply in_app_or in K. destruct K as [K|K]; [exfalso; exact (plain_no_ask _ _ _ _ H3 K)|].
          rewrite X1 in Kt. apply (C t' h K Kt).
        - intros K. split; [reflexivity|]. apply in_or_app. right. rewrite X1, Y2. apply D. congruence. }
      rewrite Y1 in E.
      destruct (t_err x); [injection E as <- <-; apply (G _ _ _ []); auto using plain_nil|].
      destruct (t_valid x).
      * cbn [negb] in E. destruct (t_room x <? t_siglen x); [discriminate E|]. injection E as <- <-. apply (G _ _ _ [EvSigned a (t_hash x)]); auto.
        intros v [<-|[]]. exact Logic.I.
      * injection E as <- <-. apply (G _ _ _ []); auto using plain_nil.
    + assert (V : t_valid x = false).
      { rewrite X3. destruct (t_valid (r_ctx q)); [|reflexivity]. destruct (D eq_refl). congruence. }
      assert (V' : t_err x = false).
      { rewrite XE'. destruct (t_err (r_ctx q)); [|reflexivity]. specialize (XE eq_refl). congruence. }
      rewrite V, V' in *.
      unfold enqueue in E. destruct (t_alg x) eqn:Ea; cbn [negb] in E.
      2:{ destruct r; injection E as <- <-; apply (FIN _ _ _ _ _ _ _ []); auto using plain_nil; try discriminate;
           try (intros b _; apply plain_other, plain_nil); intros t' h K Kt; exfalso; rewrite X1 in Kt;
           destruct (C t' h K Kt); congruence. }
      destruct (y_shared y); [discriminate E|].
      assert (Z : forall st s pc evs len tk qs, busy pc = false -> (st = GSign \/ st = GCreate) -> plain evs ->
        J (set_pc (mkSsys tk false qs (y_resp y) (y_pc y) (y_run y)
                 (supd (y_rec y) a (Some (mkSrec (r_run q) (r_glock q) len (r_buf q)
                   (mkTctx st (t_hash x) (t_room x) s false false false false true (t_cookie x) (y_ticket y)
                           (t_siglen x) (t_buf x) (t_ehash x)))))) c pc) (evs ++ tr)).
      { intros st s pc evs len tk qs H1 H2 H3. apply FIN; auto; try discriminate.
        - intros b _. apply plain_other, H3.
        - intros t' h K ->. exfalso. apply in_app_or in K. destruct K as [K|K]; [exact (plain_no_ask _ _ _ _ H3 K)|].
          apply (w_ask _ _ _ HW) in K. exact (N.lt_irrefl _ (proj2 K)). }
      assert (Z' : forall st pc len tk qs, busy pc = false -> (st = GSign \/ st = GCreate) ->
        J (set_pc (mkSsys tk false qs (y_resp y) (y_pc y) (y_run y)
                 (supd (y_rec y) a (Some (mkSrec (r_run q) (r_glock q) len (r_buf q)
                   (mkTctx st (t_hash x) (t_room x) true false true false false true (t_cookie x) (y_ticket y)
                           (t_siglen x) (t_buf x) (t_ehash x)))))) c pc) ([EvAsk (y_ticket y) (t_cookie x) (t_ehash x)] ++ tr)).
      { intros st pc len tk qs H1 H2. replace [EvAsk (y_ticket y) (t_cookie x) (t_ehash x)] with [EvAsk (y_ticket y) a (t_ehash x)] by (rewrite X6; reflexivity).
        apply FIN; auto; try discriminate.
        - intros b Hb. cbn. destruct (N.eqb_spec a b); [congruence|]. split; [reflexivity|]. intros t h [K|[]]. congruence.
        - intros _. cbn. rewrite N.eqb_refl. reflexivity.
        - intros t' h K ->. cbn. rewrite N.eqb_refl. destruct K as [K|K]; [injection K as ->; auto|].
          exfalso. apply (w_ask _ _ _ HW) in K. exact (N.lt_irrefl _ (proj2 K)). }
      destruct r.
      * injection E as <- <-. apply Z'; auto.
      * injection E as <- <-; apply (Z _ _ _ []); auto using plain_nil.
      * injection E as <- <-; apply (Z _ _ _ []); auto using plain_nil.
  - (* irq_exit *)
    unfold irq_exit in E. destruct (y_pc y c) eqn:Ep; try discriminate E. injection E as <- <-. apply J_pc; auto using plain_nil.
  - (* token_pull *)
    unfold token_pull in E. destruct (y_pc y c) eqn:Ep; try discriminate E. destruct (y_shared y); [discriminate E|].
    assert (NR : y_run y c <> None) by (intro K; apply (j_idle _ _ HJ) in K; congruence).
    destruct r as [i len| |].
    + destruct (nth_error (y_el3 y) i) as [q|]; [|discriminate E]. injection E as <- <-.
      assert (PL : plain [EvAnswer (q_ticket q) (q_cookie q) (q_hash q)]) by (intros v [<-|[]]; exact Logic.I).
      destruct (y_run y c) as [a|] eqn:Erun; [|congruence]. destruct (j_run _ _ HJ c a Erun) as (r & Er & _).
      eapply J_upd with (c := c) (p := PWrite) (a := a) (r := r);
        [exact HJ| |exact Er|congruence|reflexivity|intros b _; apply plain_other, PL| |discriminate|discriminate|discriminate|].
      * constructor; cbn; intros; rewrite ?supd_eq, ?supd_ne by assumption; auto.
      * intros c' _ K. destruct (j_lock _ _ HJ c' a K) as (r' & R1 & R2 & R3). assert (r' = r) by congruence. subst r'. auto.
      * apply RJ_plain; [exact (j_rec _ _ HJ a r Er)|exact PL].
    + injection E as <- <-. apply J_pc; auto using plain_nil.
    + injection E as <- <-.
      destruct (J_pc y tr [] c PIdle HJ plain_nil eq_refl (or_intror eq_refl)). constructor; assumption.
  - (* acquire *)
    unfold acquire in E. destruct (y_pc y c) eqn:Ep; try discriminate E. destruct (y_run y c) as [me|] eqn:Erun; [|discriminate E].
    cbv zeta in E. set (a := p_cookie (y_resp y c)) in *. clearbody a.
    destruct (y_rec y a) as [r|] eqn:Er.
    2:{ injection E as <- <-. apply J_pc; auto using plain_nil. left. congruence. }
    destruct (t_lock (r_ctx r)) eqn:El; [discriminate E|].
    assert (NC := fun c' => no_crit y tr c' a r HJ Er El).
    pose proof (j_rec _ _ HJ a r Er) as [A B C D X F].
    destruct (N.eqb_spec a me) as [->|ne].
    + injection E as <- <-.
      eapply J_upd; [exact HJ|apply upd_intro|exact Er|congruence|reflexivity|intros b _; apply plain_other, plain_nil
        |intros c' _ K; exfalso; exact (NC c' K)| |discriminate|discriminate|].
      * cbn. intros b K. injection K as <-. repeat split; auto.
      * constructor; cbn; auto.
    + destruct (r_glock r) eqn:Eg; [discriminate E|]. injection E as <- <-.
      eapply J_upd; [exact HJ|apply upd_intro|exact Er|congruence|reflexivity|intros b _; apply plain_other, plain_nil
        |intros c' _ K; exfalso; exact (NC c' K)| |discriminate|discriminate|].
      * cbn. intros b K. injection K as <-. repeat split; auto.
      * constructor; cbn; auto.
  - (* check *)
    unfold check in E. destruct (y_pc y c) eqn:Ep; try discriminate E. cbv zeta in E.
    destruct (y_rec y a) as [r|] eqn:Er; [|discriminate E].
    assert (CR : crit (y_pc y c) = Some a) by (rewrite Ep; reflexivity).
    destruct (j_lock _ _ HJ c a CR) as (r' & R1 & R2 & R3). assert (r' = r) by congruence. subst r'.
    assert (NC : forall c', c' <> c -> crit (y_pc y c') <> Some a) by (intros c' nc K; apply nc; exact (j_one _ _ HJ _ _ _ K CR)).
    assert (NR : y_run y c <> None) by (intro K; apply (j_idle _ _ HJ) in K; congruence).
    pose proof (j_rec _ _ HJ a r Er) as [A B C D X F].
    assert (HC := w_crit _ _ _ HW c a CR).
    destruct (w_resp _ _ _ HW c) as (h & H1 & H2 & H3); [rewrite Ep; reflexivity|]. rewrite HC in H2, H3.
    rewrite HC, N.eqb_refl in E. cbn [negb] in E.
    destruct (N.eqb_spec (t_ticket (r_ctx r)) (p_ticket (y_resp y c))) as [Et|Et]; cbn [negb] in E.
    + destruct (t_siglen (r_ctx r) <? p_len (y_resp y c)) eqn:Elen; injection E as <- <-.
      * eapply J_upd; [exact HJ|apply upd_intro|exact Er|congruence|reflexivity|intros b _; apply plain_other, plain_nil
        |intros c' nc K; exfalso; exact (NC c' nc K)| |discriminate|discriminate|].
        -- cbn. intros b K. injection K as <-. auto.
        -- constructor; cbn; auto. intros _. destruct (C _ _ H2 (eq_sym Et)). assumption.
      * eapply J_upd; [exact HJ|apply upd_intro_pc; exact Er|exact Er|congruence|reflexivity|intros b _; apply plain_other, plain_nil
        |intros c' nc K; exfalso; exact (NC c' nc K)| | |discriminate|exact (j_rec _ _ HJ a r Er)].
        -- cbn. intros b K. injection K as <-. auto.
        -- intros _. cbn. split; [exact Et|]. apply N.ltb_ge in Elen. exact Elen.
    + destruct ((t_ticket (r_ctx r) =? 0) || (p_ticket (y_resp y c) <=? t_ticket (r_ctx r))); [|discriminate E]. injection E as <- <-.
      eapply J_upd; [exact HJ|apply upd_intro_pc; exact Er|exact Er|congruence|reflexivity|intros b _; apply plain_other, plain_nil
        |intros c' nc K; exfalso; exact (NC c' nc K)| |discriminate|discriminate|exact (j_rec _ _ HJ a r Er)].
      cbn. intros b K. injection K as <-. auto.
  - (* copy *)
    unfold copy in E. destruct (y_pc y c) eqn:Ep; try discriminate E. destruct (y_run y c) as [me|] eqn:Erun; [|discriminate E].
    destruct (y_rec y a) as [r|] eqn:Er; [|discriminate E]. cbv zeta in E.
    destruct (t_buf (r_ctx r)) eqn:Eb; cbn [negb] in E; [|discriminate E].
    assert (CR : crit (y_pc y c) = Some a) by (rewrite Ep; reflexivity).
    destruct (j_lock _ _ HJ c a CR) as (r' & R1 & R2 & R3). assert (r' = r) by congruence. subst r'.
    assert (NC : forall c', c' <> c -> crit (y_pc y c') <> Some a) by (intros c' nc K; apply nc; exact (j_one _ _ HJ _ _ _ K CR)).
    pose proof (j_rec _ _ HJ a r Er) as [A B C D X F].
    destruct (j_copy _ _ HJ c a r Ep Er) as [Q1 Q2].
    match type of E with match y_rec ?z me with _ => _ end = _ => set (y1 := z) in E end.
    set (x1 := mkTctx _ _ _ _ _ _ _ _ _ _ _ _ _ _) in (value of y1).
    (* first the context, then the buffer of the REC that runs *)
    assert (J1 : J (set_pc y1 c (PMark a)) ([] ++ tr)).
    { eapply J_upd; [exact HJ|apply upd_intro|exact Er|congruence|reflexivity|intros b _; apply plain_other, plain_nil
        |intros c' nc K; exfalso; exact (NC c' nc K)| |discriminate| |].
      - cbn. intros b K. injection K as <-. auto.
      - intros _. exact Q1.
      - rewrite Eb in *. unfold x1. constructor; cbn; auto. intros K1 K2. destruct (F K1 K2) as (F1 & F2 & F3).
        split; [exact F1|]. split; [reflexivity|]. clear - Q2 F3. lia. }
    destruct (y_rec y1 me) as [m|] eqn:Em; [|discriminate E]. injection E as <- <-.
    exact (J_buf _ _ me m (p_sig (y_resp y c)) J1 Em).
  - (* mark *)
    unfold mark in E. destruct (y_pc y c) eqn:Ep; try discriminate E. cbv zeta in E.
    destruct (y_rec y a) as [r|] eqn:Er; [|discriminate E]. injection E as <- <-.
    assert (CR : crit (y_pc y c) = Some a) by (rewrite Ep; reflexivity).
    destruct (j_lock _ _ HJ c a CR) as (r' & R1 & R2 & R3). assert (r' = r) by congruence. subst r'.
    assert (NC : forall c', c' <> c -> crit (y_pc y c') <> Some a) by (intros c' nc K; apply nc; exact (j_one _ _ HJ _ _ _ K CR)).
    assert (NR : y_run y c <> None) by (intro K; apply (j_idle _ _ HJ) in K; congruence).
    pose proof (j_rec _ _ HJ a r Er) as [A B C D X F].
    assert (HC := w_crit _ _ _ HW c a CR).
    destruct (w_resp _ _ _ HW c) as (h & H1 & H2 & H3); [rewrite Ep; reflexivity|]. rewrite HC in H2, H3.
    assert (Et := j_mark _ _ HJ c a r Ep Er).
    destruct (C _ _ H2 (eq_sym Et)) as [Q1 Q2]. destruct (A Q1) as (A1 & _).
    eapply J_upd; [exact HJ|apply upd_intro|exact Er|congruence|reflexivity|intros b _; apply plain_other, plain_nil
        |intros c' nc K; exfalso; exact (NC c' nc K)| |discriminate|discriminate|].
    + cbn. intros b K. injection K as <-. auto.
    + constructor; cbn; auto. intros _. split; [exact Q1|]. rewrite Et in A1 |- *.
      assert (h = t_ehash (r_ctx r)) by congruence. subst h. exact H3.
  - (* release *)
    unfold release in E. destruct (y_pc y c) eqn:Ep; try discriminate E. destruct (y_run y c) as [me|] eqn:Erun; [|discriminate E].
    destruct (y_rec y a) as [r|] eqn:Er; [|discriminate E]. cbv zeta in E. injection E as <- <-.
    assert (CR : crit (y_pc y c) = Some a) by (rewrite Ep; reflexivity).
    assert (NC : forall c', c' <> c -> crit (y_pc y c') <> Some a) by (intros c' nc K; apply nc; exact (j_one _ _ HJ _ _ _ K CR)).
    pose proof (j_rec _ _ HJ a r Er) as [A B C D X F].
    eapply J_upd; [exact HJ|apply upd_intro|exact Er|congruence|reflexivity|intros b _; apply plain_other, plain_nil
        |intros c' nc K; exfalso; exact (NC c' nc K)|discriminate|discriminate|discriminate|].
    constructor; cbn; auto.
  - (* token_out *)
    unfold token_out in E. destruct (y_pc y c) eqn:Ep; try discriminate E.
    destruct (own y c) as [[a r]|] eqn:Eo; [|discriminate E]. apply own_some in Eo. destruct Eo as [Erun Er].
    destruct (r_len r); [|discriminate E]. cbv zeta in E.
    destruct (t_state (r_ctx r)) eqn:Es.
    1, 2, 3: injection E as <- <-; apply J_pc; auto using plain_nil.
    injection E as <- <-.
    assert (PL : plain [EvToken a (t_hash (r_ctx r)) (r_buf r)]) by (intros v [<-|[]]; exact Logic.I).
    pose proof (RJ_plain _ _ _ _ (j_rec _ _ HJ a r Er) PL) as [A B C D X F].
    eapply J_upd; [exact HJ|apply upd_intro|exact Er|congruence|reflexivity|intros b _; apply plain_other, PL
        | |discriminate|discriminate|discriminate|].
    + intros c' nc K. destruct (j_lock _ _ HJ c' a K) as (r' & R1 & R2 & R3). assert (r' = r) by congruence. subst r'. cbn. auto.
    + constructor; cbn; auto; try discriminate. intros K. destruct (A K) as (K1 & K2 & K3 & K4 & K5). split; [exact K1|]. split; [exact K2|]. split; [exact K3|]. split; [exact K4|discriminate].
Qed.
