(** Corollaries about the pages of realms that are not NEW *)
From Coq Require Import NArith ZArith List Bool Lia ZifyBool ZifyN.
From Verif Require Import Bits S2tte S2tteFacts State Granule Wp RecFields Measure RmiRtt RmiRealm Psci RmiRec Gic Esr Rsi RecRun
  Arch ArchFacts Mmu Machine Spec SpecStep SpecExit Inv InvTree MmuFacts InvStep InvStep2 InvStep3 Effects Frames CmdLib CmdData CmdRipas
  CmdRec CmdRealm CmdRsi2 CmdRun CmdRun2 CmdAll MInv MStep View StepView Own ExitFacts Step Step2 Step3.
Import ListNotations.
Local Open Scope N_scope.

Lemma geffs_app : forall c l1 l2 gh G V gh' G' V', geffs c gh G V (l1 ++ l2) gh' G' V' -> Inv c gh G V ->
  exists gh1 G1 V1, Inv c gh1 G1 V1 /\ geffs c gh G V l1 gh1 G1 V1 /\ geffs c gh1 G1 V1 l2 gh' G' V'.
Proof.
  intros c l1. induction l1 as [|a l1 IH]; intros l2 gh G V gh' G' V' H I; cbn [app] in H.
  - exists gh, G, V. split; [exact I|]. split; [constructor; reflexivity|exact H].
  - inversion H as [|? ? ? ? gh1 G1 V1 ? ? ? ? X Y]; subst. pose proof (geff_inv _ _ _ _ _ _ _ _ I X) as I1.
    destruct (IH _ _ _ _ _ _ _ Y I1) as (gh2 & G2 & V2 & I2 & Z1 & Z2).
    exists gh2, G2, V2. split; [exact I2|]. split; [econstructor; eassumption|exact Z2].
Qed.
Lemma geffs_last_rec : forall c l1 a r r' n gh G V gh' G' V', geffs c gh G V (l1 ++ [LRec a r r' n]) gh' G' V' -> Inv c gh G V ->
  G' a = mkG REC n (CRec r').
Proof.
  intros c l1 a r r' n gh G V gh' G' V' H I. apply geffs_app in H; [|exact I]. destruct H as (gh1 & G1 & V1 & _ & _ & H).
  inversion H as [|? ? ? ? ? ? ? ? ? ? ? X Y]; subst. inversion Y as [? ? ? ? ? EG EV|]; subst. rewrite EG. inversion X; subst. assumption.
Qed.

(** ** RIPAS ranges *)

Lemma init_ripas_facts : forall c h m o m' rp rd base top r, next c h m o m' rp -> done o rp (KRttInitRipas rd base top) r ->
  exists d, realm m rd d /\ rd_state d = REALM_NEW /\ base < x1 r /\ x1 r <= top /\ top <= 2 ^ (ipa_bits (rd_ctx d) - 1) /\ base mod 4096 = 0 /\ x1 r mod 4096 = 0.
Proof.
  intros c h m o m' rp rd base top r H D.
  destruct (cmd_done_eff _ _ _ _ _ _ _ _ H D) as (gh & gh' & labs & inv & M & M' & GE & K & OK & _).
  destruct K as [(NO & _)|(_ & _ & d & wi & n & R & N & Hbt & Ab & At & Ht & W & (Hn & Hb & Ho & Hot & _) & _)]; [contradiction|].
  exists d. pose proof (ms_pos (w_level wi)). pose proof (mv_inv _ _ _ M) as I.
  destruct (walk_at _ _ _ _ I _ _ _ _ _ R W) as (_ & _ & _ & WL & _).
  split; [exact R|]. split; [exact N|]. split; [nia|]. split; [exact Hot|]. split; [exact Ht|]. split; [exact Ab|]. rewrite Ho.
  assert (E : ms (w_level wi) mod 4096 = 0). { rewrite ms_pg by lia. apply N.mod_mul. discriminate. }
  apply N.div_exact in E; [|discriminate]. rewrite E. set (q := ms _ / 4096). replace (N.of_nat n * (4096 * q)) with (N.of_nat n * q * 4096) by lia.
  rewrite N.mod_add by discriminate. exact Ab.
Qed.

Lemma set_ripas_facts : forall c h m o m' rp rd rec base top r, next c h m o m' rp -> done o rp (KRttSetRipas rd rec base top) r ->
  exists d rc rc', realm m rd d /\ rec_is m rec rc /\ rec_is m' rec rc' /\ r_g_rd rc = rd /\ ~ (exists p, executes m p rec) /\
    let q := r_set_ripas rc in sr_addr q = base /\ base < x1 r /\ x1 r <= top /\ top <= sr_top q /\
    rc' = set_req rc (mkReq (sr_base q) (sr_top q) (x1 r) (sr_ripas q) (sr_change_destroyed q) (sr_response q)).
Proof.
  intros c h m o m' rp rd rec base top r H D. pose proof H as (RCH & _).
  destruct (cmd_done_eff _ _ _ _ _ _ _ _ H D) as (gh & gh' & labs & inv & M & M' & GE & K & OK & _).
  destruct K as [(NO & _)|(_ & d & rc & wi & n & K)]; [contradiction|]. cbv zeta in K.
  destruct K as (R & RC & RD1 & Z0 & Eb & Hbt & Htt & W & (Hn & Hb & Ho & Hot & _ & ACC & _) & -> & _).
  pose proof (mv_inv _ _ _ M) as I. apply geffs_last_rec in GE; [|exact I]. pose proof (ms_pos (w_level wi)).
  exists d, rc. eexists. split; [exact R|]. split; [exact RC|]. split; [split; rewrite GE; reflexivity|]. split; [exact RD1|]. split.
  { intro X. destruct (rec_counts _ _ _ RCH _ _ RC) as [(E & _)|(_ & E)]; [congruence|]. destruct X as [p X]. eapply E, X. }
  cbv zeta. repeat (split; [lia||nia|]). reflexivity.
Qed.

(** ** RIPAS of a realm that is not NEW *)

Lemma protected_in : forall c h m a d ipa, reachable c h m -> realm m a d -> protected (rd_ctx d) ipa -> ipa < 2 ^ ipa_bits (rd_ctx d).
Proof.
  intros c h m a d ipa RC R P. unfold protected in P. eapply N.lt_le_trans; [exact P|]. apply pow2_le. lia.
Qed.
Lemma page_half : forall c h m a d ipa, reachable c h m -> realm m a d -> protected (rd_ctx d) ipa ->
  exists q, page_ripas (page_at (m_gr m) (rd_ctx d) ipa) = Some q.
Proof.
  intros c h m a d ipa RC R P. pose proof (protected_in _ _ _ _ _ _ RC R P) as Hi.
  destruct (reach_minv _ _ _ RC) as (gh & M). pose proof (mv_inv _ _ _ M) as I.
  destruct (leaf_of _ _ _ _ I _ _ _ R Hi) as (l0 & b & e & LF). destruct (view_leaf _ _ _ _ I _ _ _ _ _ _ R Hi LF) as [-> _].
  destruct (leaf_level _ _ _ _ I _ _ _ _ _ _ R LF) as (L1 & L2 & VE & EO).
  apply (leaf_par _ _ _ _ I _ _ ipa l0 (ipa / 4096 / pg l0) R L1 eq_refl) in P. destruct LF as (_ & _ & T).
  destruct e; try discriminate T; cbn [view_e page_ripas]; try (eexists; reflexivity); exfalso; lia.
Qed.

Lemma pages_step : forall c h m o m' rp, next c h m o m' rp -> forall a d d' ipa, realm m a d -> realm m' a d' -> rd_state d <> REALM_NEW ->
  protected (rd_ctx d) ipa ->
  let p := page_at (m_gr m) (rd_ctx d) ipa in let p' := page_at (m_gr m') (rd_ctx d) ipa in
  p' = p \/
  (exists q data, p = PUnassigned q /\ p' = PAssigned q data /\ exists map r, block map 3 ipa = true /\ done o rp (KDataCreateUnknown a data map) r) \/
  (exists q pa, p = PAssigned q pa /\ q <> EMPTY /\ p' = PUnassigned DESTROYED /\ exists map r, block map 3 ipa = true /\ done o rp (KDataDestroy a map) r) \/
  (exists pa, p = PAssigned EMPTY pa /\ p' = PUnassigned EMPTY /\ exists map r, block map 3 ipa = true /\ done o rp (KDataDestroy a map) r) \/
  (p' = PUnassigned DESTROYED /\ exists map ul r, block map (sgn64 ul - 1) ipa = true /\ done o rp (KRttDestroy a map ul) r) \/
  (exists rq q, asked m o rp a ipa rq /\ new_ripas rq = Some q /\ p' = with_ripas p q /\ (page_ripas p = Some DESTROYED -> sr_change_destroyed rq = 1)).
Proof.
  intros c h m o m' rp H a d d' ipa R R' NN PR p p'. pose proof H as (RCH & _). pose proof (protected_in _ _ _ _ _ _ RCH R PR) as Hi.
  destruct (page_half _ _ _ _ _ _ RCH R PR) as [q0 HP].
  destruct (page_step _ _ _ _ _ _ H _ _ _ R R') as (_ & P). destruct (P _ Hi) as [E B]. clear P.
  fold p in E, B, HP. fold p' in E. clearbody p p'.
  destruct o as [cp k| | | | | | | |]; try (left; exact E).
  destruct rp as [|r| |]; try (left; exact E).
  cbn [page_then] in E. destruct (N.eqb_spec (x0 r) RMI_SUCCESS) as [OK|]; [|left; exact E].
  assert (D : done (OCmd cp k) (Reply r) k r) by (exists cp; auto). specialize (B _ _ D).
  destruct k; cbn [page_after page_before] in E, B; try (left; exact E);
    destruct (_ && _) eqn:T in E; try (left; exact E); specialize (B T) || idtac; subst p'; apply andb_prop in T; destruct T as [T1 T2]; apply N.eqb_eq in T1; subst rd.
  - (* data create *) exfalso.
    destruct (cmd_done_eff _ _ _ _ _ _ _ _ H D) as (gh & gh' & labs & inv & M & M' & GE & K & _).
    destruct K as [(NO & _)|(_ & _ & d0 & e0 & f & R0 & N & _)]; [contradiction|]. apply NN. destruct R, R0. congruence.
  - destruct B as [q ->]. right. left. exists q, data. eauto 10.
  - destruct B as [q ->]. right. right. destruct q; [right|left|left]; [left; exists (x1 r)|exists RAM, (x1 r)|exists DESTROYED, (x1 r)];
      repeat split; try discriminate; eauto.
  - right. right. right. right. left. unfold protected in PR. destruct (N.ltb_spec ipa (2 ^ (ipa_bits (rd_ctx d) - 1))); [|lia]. eauto 10.
  - exfalso. subst p. discriminate HP.
  - exfalso. destruct B as (pa & mt & sh & ->). discriminate HP.
  - exfalso. destruct (init_ripas_facts _ _ _ _ _ _ _ _ _ _ H D) as (d0 & R0 & N & _). apply NN. destruct R, R0. congruence.
  - destruct (set_ripas_facts _ _ _ _ _ _ _ _ _ _ _ H D) as (d0 & rc & rc' & R0 & RC & _ & RD1 & _ & K). cbv zeta in K. destruct K as (K1 & K2 & K3 & K4 & _).
    assert (RQ : request m rec = Some (r_set_ripas rc)) by (unfold request; destruct RC as [_ ->]; reflexivity). rewrite RQ in B |- *.
    unfold in_range in T2. apply andb_prop in T2. destruct T2 as [T2 T3]. apply N.leb_le in T2. apply N.ltb_lt in T3.
    assert (AS : asked m (OCmd cp (KRttSetRipas a rec base top)) (Reply r) a ipa (r_set_ripas rc)).
    { exists rec, rc, base, top, r. repeat (split; [assumption||congruence||lia|]). lia. }
    destruct B as (q & B1 & B2). destruct (sr_ripas (r_set_ripas rc)) as [|[?|?|]] eqn:SR; try (left; reflexivity).
    + do 5 right. exists (r_set_ripas rc), EMPTY. unfold new_ripas. rewrite SR. repeat (split; [auto; fail|]). intro X. destruct (B2 ltac:(congruence) _ eq_refl) as [Y|Y]; [exact Y|].
      rewrite SR in Y. lia.
    + do 5 right. exists (r_set_ripas rc), RAM. unfold new_ripas. rewrite SR. repeat (split; [auto; fail|]). intro X. destruct (B2 ltac:(congruence) _ eq_refl) as [Y|Y]; [exact Y|].
      rewrite SR in Y. lia.
Qed.

(** ** Memory of a realm that is not NEW *)

Definition not_free (lab : label) : bool := match lab with LFree _ _ => false | _ => true end.
Lemma gchange_data : forall c lab z g g', not_free lab = true -> gchange c lab z g g' -> g_state g = DATA -> g_state g' = DATA -> g' = g.
Proof.
  intros c lab z g g' NF [->|H] S S'; [reflexivity|]. exfalso. unfold rtt_upd, gone in H. destruct lab; try discriminate NF;
    repeat match goal with
    | H : _ /\ _ |- _ => destruct H
    | H : exists _, _ |- _ => destruct H
    | H : _ \/ _ |- _ => destruct H
    end; subst; cbn [g_state] in *; congruence.
Qed.
(** A granule that is DATA after an effect was DATA or DELEGATED before *)
Lemma gchange_to_data : forall c lab z g g', not_free lab = true -> gchange c lab z g g' -> g_state g' = DATA ->
  g' = g \/ exists rd n e e' f, lab = LAssign rd n e e' z f /\ g_state g = DELEGATED /\ g' = mkG DATA 0 (CW f).
Proof.
  intros c lab z g g' NF [->|H] S'; [auto|]. unfold rtt_upd, gone in H. destruct lab; try discriminate NF;
    repeat match goal with
    | H : _ /\ _ |- _ => destruct H
    | H : exists _, _ |- _ => destruct H
    | H : _ \/ _ |- _ => destruct H
    end; subst; cbn [g_state] in *; try congruence. right. do 5 eexists. eauto.
Qed.
Lemma gchanges_to_data : forall c labs z g g', forallb not_free labs = true -> gchanges c labs z g g' -> g_state g' = DATA ->
  g' = g \/ exists rd n e e' f, In (LAssign rd n e e' z f) labs /\ g' = mkG DATA 0 (CW f).
Proof.
  intros c labs z. induction labs as [|lab labs IH]; intros g g' NF H S'; [left; exact H|].
  cbn [forallb] in NF. apply andb_prop in NF. destruct NF as [N1 N2]. destruct H as (g1 & H1 & H2).
  destruct (IH _ _ N2 H2 S') as [->|(rd & n & e & e' & f & IN & E)].
  - destruct (gchange_to_data _ _ _ _ _ N1 H1 S') as [->|(rd & n & e & e' & f & -> & _ & E)]; [left; reflexivity|]. right. exists rd, n, e, e', f. split; [left; reflexivity|exact E].
  - right. exists rd, n, e, e', f. split; [right; exact IN|exact E].
Qed.

Lemma cmd_data : forall c h m p k m' rp z, next c h m (OCmd p k) m' rp -> g_state (m_gr m' z) = DATA ->
  m_gr m' z = m_gr m z \/ exists r f, rp = Reply r /\ m_gr m' z = mkG DATA 0 (CW f) /\ x0 r = RMI_SUCCESS /\
    ((exists rd map, k = KDataCreateUnknown rd z map /\ forall i, f i = 0) \/ exists ok rd map src fl, k = KDataCreate ok rd z map src fl).
Proof.
  intros c h m p k m' rp z H S'. destruct (next_good _ _ _ _ _ _ H) as (gh & gh' & labs & M & M' & GE & OE).
  destruct OE as (_ & r & inv & -> & K & _). pose proof (mv_inv _ _ _ M) as I.
  pose proof (geffs_gran _ _ _ _ _ _ _ _ GE I z) as GC.
  assert (NIL : labs = [] -> m_gr m' z = m_gr m z) by (intros ->; exact GC).
  assert (CH : forall rd l u es n i m, forallb not_free (chg rd l u es n i m) = true).
  { intros. unfold chg. apply forallb_forall. intros x IN. apply in_map_iff in IN. destruct IN as (? & <- & _). reflexivity. }
  assert (CH2 : forall rd l u es n i m rd1 n1 e1 e2 y f, ~ In (LAssign rd1 n1 e1 e2 y f) (chg rd l u es n i m)).
  { intros. unfold chg. rewrite in_map_iff. intros (y0 & E & _). discriminate E. }
  assert (STEP : forallb not_free labs = true -> (forall rd n e e' f, ~ In (LAssign rd n e e' z f) labs) -> m_gr m' z = m_gr m z).
  { intros NF NA. destruct (gchanges_to_data _ _ _ _ _ NF GC S') as [E|(rd & n & e & e' & f & IN & _)]; [exact E|]. exfalso. eapply NA, IN. }
  assert (FREE : forall a g1, labs = [LFree a g1] -> g_state g1 <> DATA -> m_gr m' z = m_gr m z).
  { intros a g1 -> ND. apply gchanges_one in GC. destruct GC as [E|(-> & E & _)]; [exact E|]. exfalso. congruence. }
  assert (WK : forall A B : Prop, A -> A \/ B) by auto.
  unfold cmd_eff in K. cbv zeta in K.
  destruct k; try (destruct K as [(_ & (-> & _) & _)|(OK & K)]; [left; apply NIL; reflexivity|]);
    try (left; destruct K as ((-> & _) & _); apply NIL; reflexivity).
  3:{ (* data create *) destruct K as (_ & d0 & e0 & f & _ & _ & _ & _ & _ & _ & _ & _ & _ & ->).
    edestruct (gchanges_to_data c) as [E|(rd1 & n & e & e' & f1 & IN & E)]; [|exact GC|exact S'| |]; [reflexivity|left; exact E|].
    destruct IN as [IN|[IN|[]]]; [discriminate IN|]. injection IN as -> _ _ _ -> ->. right. exists r, f1. repeat (split; [auto; fail|]). right. eauto 10. }
  3:{ destruct K as (_ & d0 & e0 & _ & _ & _ & _ & ->).
    edestruct (gchanges_to_data c) as [E|(rd1 & n & e & e' & f1 & IN & E)]; [|exact GC|exact S'| |]; [reflexivity|left; exact E|].
    destruct IN as [IN|[]]. injection IN as -> _ _ _ -> <-. right. exists r, (fun _ => 0). repeat (split; [auto; fail|]). left. eauto. }
  1,2: left; destruct K as (-> & _); eapply FREE; [reflexivity|discriminate].
  all: left; repeat match goal with
       | H : _ /\ _ |- _ => destruct H
       | H : exists _, _ |- _ => destruct H
       | H : _ \/ _ |- _ => destruct H
       end; subst labs; (apply STEP; [rewrite ?forallb_app, ?CH; reflexivity|];
         intros ? ? ? ? ? IN; rewrite ?in_app_iff in IN; repeat (destruct IN as [IN|IN]); try discriminate IN; try contradiction; eapply CH2, IN).
Qed.

Lemma data_at : forall c h m a d ipa q pa, reachable c h m -> realm m a d -> page_at (m_gr m) (rd_ctx d) ipa = PAssigned q pa -> g_state (m_gr m pa) = DATA.
Proof.
  intros c h m a d ipa q pa RC R E. destruct (reach_minv _ _ _ RC) as (gh & M).
  apply (granule_dmap _ _ _ _ (mv_inv _ _ _ M) _ _ ipa pa R). rewrite E. reflexivity.
Qed.
Lemma data_words : forall c h m pa, reachable c h m -> g_state (m_gr m pa) = DATA -> exists f, g_mem (m_gr m pa) = CW f.
Proof.
  intros c h m pa RC S. destruct (reach_minv _ _ _ RC) as (gh & M). apply (i_data _ _ _ _ (mv_inv _ _ _ M) pa S).
Qed.

Definition same_words (f' f : N -> N) : Prop := forall i, f' i = f i.

(** The memory that a realm finds after a command *)
Lemma words_step : forall c h m p k m' rp, next c h m (OCmd p k) m' rp -> forall a d d' ipa f', realm m a d -> realm m' a d' -> rd_state d <> REALM_NEW ->
  protected (rd_ctx d) ipa -> page_words (m_gr m') (page_at (m_gr m') (rd_ctx d) ipa) = Some f' ->
  page_words (m_gr m) (page_at (m_gr m) (rd_ctx d) ipa) = Some f' \/
  (page_at (m_gr m) (rd_ctx d) ipa = PUnassigned RAM /\ forall i, f' i = 0) \/
  (exists q, asked m (OCmd p k) rp a ipa q /\ new_ripas q = Some RAM /\
     exists o pa, page_at (m_gr m) (rd_ctx d) ipa = PAssigned o pa /\ o <> RAM /\ g_mem (m_gr m pa) = CW f').
Proof.
  intros c h m p k m' rp H a d d' ipa f' R R' NN PR W. pose proof H as (RCH & _). pose proof (next_reachable _ _ _ _ _ _ H) as RCH'.
  assert (EC := ctx_step _ _ _ _ _ _ H a d d' R R').
  set (p' := page_at (m_gr m') (rd_ctx d) ipa) in *.
  assert (P' : exists pa, p' = PAssigned RAM pa /\ g_mem (m_gr m' pa) = CW f').
  { destruct p' as [|? |[] pa| |]; try discriminate W. cbn [page_words] in W. exists pa. split; [reflexivity|]. destruct (g_mem (m_gr m' pa)); try discriminate W. congruence. }
  destruct P' as (pa & P' & W'). pose proof P' as PA. unfold p' in PA. rewrite <- EC in PA. pose proof (data_at _ _ _ _ _ _ _ _ RCH' R' PA) as S'.
  assert (KEEP : forall q, page_at (m_gr m) (rd_ctx d) ipa = PAssigned q pa -> g_mem (m_gr m pa) = CW f').
  { intros q E. pose proof (data_at _ _ _ _ _ _ _ _ RCH R E) as S.
    destruct (cmd_data _ _ _ _ _ _ _ pa H S') as [EE|(r & f & -> & _ & OK & K)]; [congruence|].
    assert (MV : g_state (m_gr m pa) = DELEGATED).
    { destruct K as [(rd & map & -> & _)|(ok & rd & map & src & fl & ->)].
      - eapply (moves_states _ _ _ _ _ _ _ _ _ H). eapply mv_data_unknown. exists p. eauto.
      - eapply (moves_states _ _ _ _ _ _ _ _ _ H). eapply mv_data_create. exists p. eauto. }
    congruence. }
  destruct (pages_step _ _ _ _ _ _ H _ _ _ ipa R R' NN PR) as [E|[(q & data & E & E' & map & r & _ & D)|[(q & pa0 & _ & _ & E & _)|[(pa0 & _ & E & _)|[(E & _)|(rq & q & AS & NR & E & _)]]]]];
    cbv zeta in *; try (fold p' in E); try (fold p' in E'); try congruence.
  - left. rewrite P' in E. rewrite <- E. cbn [page_words]. rewrite (KEEP RAM) by congruence. reflexivity.
  - right. left. rewrite P' in E'. injection E' as <- <-. split; [exact E|]. destruct D as (p1 & E1 & E2 & OK). injection E1 as <- ->.
    destruct (cmd_data _ _ _ _ _ _ _ pa H S') as [EE|(r1 & f & E1 & E3 & OK1 & K)].
    + exfalso. destruct (moves_states _ _ _ _ _ _ _ _ _ H (mv_data_unknown m _ rp a pa map r (ex_intro _ p (conj eq_refl (conj E2 OK))))) as [S1 S2]. congruence.
    + destruct K as [(rd & map1 & _ & Z)|(ok & rd & map1 & src & fl & E4)]; [|discriminate E4]. rewrite E3 in W'. cbn in W'. injection W' as <-. exact Z.
  - rewrite P' in E. destruct (page_at (m_gr m) (rd_ctx d) ipa) as [|? |o pa0| |] eqn:EP; try discriminate E. cbn [with_ripas] in E. injection E as <- <-.
    destruct o; [|left; cbn [page_words]; rewrite (KEEP RAM eq_refl); reflexivity|];
      right; right; exists rq; (split; [exact AS|split; [exact NR|]]); eexists; eexists; (split; [reflexivity|split; [discriminate|apply (KEEP _ eq_refl)]]).
Qed.

(** The memory that a realm loses with a command *)
Lemma words_lost : forall c h m o m' rp, next c h m o m' rp -> forall a d d' ipa f, realm m a d -> realm m' a d' -> rd_state d <> REALM_NEW ->
  protected (rd_ctx d) ipa -> page_words (m_gr m) (page_at (m_gr m) (rd_ctx d) ipa) = Some f ->
  page_at (m_gr m') (rd_ctx d) ipa = page_at (m_gr m) (rd_ctx d) ipa \/ page_at (m_gr m') (rd_ctx d) ipa = PUnassigned DESTROYED \/
  (exists q, asked m o rp a ipa q /\ new_ripas q = Some EMPTY).
Proof.
  intros c h m o m' rp H a d d' ipa f R R' NN PR W.
  destruct (pages_step _ _ _ _ _ _ H _ _ _ ipa R R' NN PR) as [E|[(q & data & E & _)|[(q & pa0 & _ & _ & E & _)|[(pa0 & E & _)|[(E & _)|(rq & q & AS & NR & E & _)]]]]];
    auto; try (rewrite E in W; discriminate W).
  destruct (page_at (m_gr m) (rd_ctx d) ipa) as [|? |[] pa| |] eqn:EP; try discriminate W. destruct q.
  - right. right. eauto.
  - left. exact E.
  - exfalso. unfold new_ripas in NR. destruct (sr_ripas rq) as [|[]]; discriminate NR.
Qed.
