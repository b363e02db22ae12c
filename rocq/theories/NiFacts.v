(** Commands and operations of realms in machines that agree. *)
From Coq Require Import NArith ZArith List Bool Lia.
From Verif Require Import Bits S2tte State Granule RecFields Measure RmiGranule RmiRtt RmiRealm Psci RmiRec Machine
  Spec SpecStep SpecAgree Ni NiCmd Inv Wp CmdRun MInv MStep Own Step.
Import ListNotations.
Local Open Scope N_scope.

Definition any (r : recd) : Prop := True.

Lemma just_alike : forall J p p' s s', alike J same_ (run p s) (run p' s') -> alike J same_ (run (just p) s) (run (just p') s').
Proof.
  intros J p p' s s' H. unfold just. rewrite !run_bind.
  destruct (run p s), (run p' s'); cbn in H |- *; try contradiction; try exact I.
  destruct H as (L & P & V & E). split; [exact L|]. exists P. split; [exact V|]. unfold same_ in *. congruence.
Qed.

Lemma sound0 : forall J A (p : prog A) s s', ni J [] p p same_ -> low J s s' -> alike J same_ (run p s) (run p s').
Proof. intros J A p s s' H L. eapply ni_sound; [exact H|exact L|]. intros g []. Qed.

Lemma data_create_dead : forall c x x' a b d src fl s, g_state (s_gr s src) <> NS ->
  run (smc_data_create c x a b d src fl) s = run (smc_data_create c x' a b d src fl) s.
Proof.
  intros c x x' a b d src fl s H. unfold smc_data_create. destruct (_ && _); [reflexivity|]. destruct (negb _); [reflexivity|].
  rewrite !run_bind. unfold rd_state_. cbn [run].
  assert (E : gstate_eqb (g_state (s_gr s src)) NS = false) by (destruct (g_state (s_gr s src)); try reflexivity; contradiction H; reflexivity).
  rewrite E. reflexivity.
Qed.
Lemma data_create_alike : forall c ok a b d src fl s s', low any s s' ->
  alike any same_ (run (smc_data_create c (host_page (s_gr s) src ok) a b d src fl) s)
                  (run (smc_data_create c (host_page (s_gr s') src ok) a b d src fl) s').
Proof.
  intros c ok a b d src fl s s' L. destruct L as (L1 & L2 & L3 & L5). destruct (L5 src) as (S & _ & C).
  assert (K : forall x x', same_src (Some (x, fl)) (Some (x', fl)) -> 
    alike any same_ (run (smc_data_create c x a b d src fl) s) (run (smc_data_create c x' a b d src fl) s')).
  { intros x x' E. refine (ni_sound any _ _ _ _ [] _ _ _ _ (conj L1 (conj L2 (conj L3 L5))) ltac:(intros ? [])).
    unfold smc_data_create. dif; [apply ni_ret; reflexivity|]. dif; [apply ni_ret; reflexivity|]. nstep. nstep. dif; [apply ni_ret; reflexivity|].
    apply k_data_create. exact E. }
  destruct (gstate_eqb (g_state (s_gr s src)) NS) eqn:N.
  - apply K. destruct (g_state (s_gr s src)) eqn:E; try discriminate N. destruct C as [C|C]; [discriminate C|].
    destruct C as (C & _). unfold host_page. destruct ok; [|reflexivity].
    destruct (g_mem (s_gr s src)), (g_mem (s_gr s' src)); cbn in C |- *; try contradiction; try reflexivity. split; [reflexivity|exact C].
  - assert (N1 : g_state (s_gr s src) <> NS) by (intro E; rewrite E in N; discriminate N).
    rewrite (data_create_dead c _ None a b d src fl s N1).
    rewrite (data_create_dead c (host_page (s_gr s') src ok) None a b d src fl s'); [|rewrite <- S; exact N1].
    apply K. reflexivity.
Qed.

Definition psci (k : cmd) : bool := match k with KPsciComplete _ _ _ => true | _ => false end.
Lemma cmd_alike : forall c k s s', psci k = false -> low any s s' ->
  alike any same_ (run (cmd_prog c (s_gr s) k) s) (run (cmd_prog c (s_gr s') k) s').
Proof.
  intros c k s s' NK L. assert (J0 : any rec_zero) by exact I.
  destruct k; cbn [cmd_prog]; try discriminate NK.
  all: try (cbn; split; [exact L|]; exists []; split; [intros ? []|reflexivity]).
  all: try apply just_alike.
  all: try apply data_create_alike; try exact L.
  all: apply sound0; try exact L.
  - apply k_delegate.
  - apply k_undelegate.
  - apply k_data_create_unknown.
  - apply k_data_destroy.
  - apply k_activate.
  - apply k_realm_create.
  - apply k_realm_destroy.
  - apply (k_rec_create any J0). intros; exact I.
  - apply (k_rec_destroy any J0).
  - apply k_rtt_create.
  - apply k_rtt_destroy.
  - apply k_map.
  - apply k_read_entry.
  - apply k_unmap.
  - apply k_fold.
  - apply k_aux_count.
  - apply k_init_ripas.
  - apply (k_set_ripas any J0). intros; exact I.
Qed.

(** ** Agreement and the states of the commands *)

Lemma agree_low : forall m m' p, agree m m' -> low any (cpu_state m p) (cpu_state m' p).
Proof.
  intros m m' p (A1 & A2 & A3 & A4 & A5). refine (conj A1 (conj (A2 p) (conj A3 _))).
  intros g. destruct (A5 g) as (E1 & E2 & E3). refine (conj E1 (conj E2 _)). cbn [cpu_state s_gr].
  destruct E3 as [E3|[E3|E3]]; [left; rewrite E3; reflexivity|left; rewrite E3; reflexivity|].
  right. split; [exact E3|]. destruct (g_mem (m_gr m g)); exact I.
Qed.

Lemma rec_state : forall c gh G V a r, Inv c gh G V -> g_mem (G a) = CRec r -> g_state (G a) = REC.
Proof.
  intros c gh G V a r H M. pose proof (i_kinds _ _ _ _ H a) as K. destruct (g_state (G a)) eqn:E; try contradiction; try reflexivity.
  - destruct (i_ns _ _ _ _ H a E) as (_ & f & F). congruence.
  - rewrite (i_del _ _ _ _ H a E) in M. discriminate M.
  - destruct (i_rd _ _ _ _ H a E) as (d & F & _). congruence.
  - destruct (i_aux _ _ _ _ H a E) as (_ & (f & F) & _). congruence.
  - destruct (i_data _ _ _ _ H a E) as (_ & (f & F) & _). congruence.
  - pose proof (i_rtt _ _ _ _ H a E) as K1. destruct (own gh a) as [[[rd l] t]|] eqn:O; [|contradiction K1; reflexivity].
    destruct (i_own _ _ _ _ H a rd l t O) as (d & _ & T). destruct (t_words _ _ _ _ _ _ _ T) as (f & F & _). congruence.
Qed.

Lemma agree_low_off : forall c gh m m' p, MInv c gh m -> agree m m' -> low off (cpu_state m p) (cpu_state m' p).
Proof.
  intros c gh m m' p MI A. destruct (agree_low m m' p A) as (A1 & A2 & A3 & A5). refine (conj A1 (conj A2 (conj A3 _))).
  intros g. destruct (A5 g) as (E1 & E2 & E3). refine (conj E1 (conj E2 _)). cbn [cpu_state s_gr] in *.
  destruct E3 as [E3|(E3 & _)]; [left; exact E3|right]. split; [exact E3|].
  destruct (g_mem (m_gr m g)) as [| |rc] eqn:M; try exact I. pose proof (rec_state _ _ _ _ _ _ (mv_inv _ _ _ MI) M) as S.
  destruct (mv_pend _ _ _ MI g rc (conj S M)) as (_ & O). intros K. apply (O K).
Qed.

Lemma low_agree : forall J m m' p s s' cpu cpu' att att', agree m m' -> low J s s' ->
  (forall p, option_map ru_rec (cpu p) = option_map ru_rec (cpu' p)) -> agree (back m p s cpu att) (back m' p s' cpu' att').
Proof.
  intros J m m' p s s' cpu cpu' att att' (A1 & A2 & A3 & A4 & A5) (L1 & L2 & L3 & L5) C.
  refine (conj L1 (conj _ (conj L3 (conj C _)))); cbn [back m_slots m_gr].
  - intros q x. unfold upd. destruct (q =? p); auto.
  - intros g. destruct (L5 g) as (E1 & E2 & E3). refine (conj E1 (conj E2 _)).
    destruct E3 as [E3|(E3 & _)]; [|auto]. destruct (g_state (s_gr s g)); try discriminate E3; auto.
Qed.

Lemma cmd_answer : forall c h m m' p k, reachable c h m -> agree m m' -> same_answer (step c h m (OCmd p k)) (step c h m' (OCmd p k)).
Proof.
  intros c h m m' p k R A. cbn [step]. pose proof A as (_ & _ & _ & A4 & _). specialize (A4 p).
  destruct (m_cpu m p), (m_cpu m' p); try discriminate A4; [exact I|].
  assert (K : exists J, alike J same_ (run (cmd_prog c (m_gr m) k) (cpu_state m p)) (run (cmd_prog c (m_gr m') k) (cpu_state m' p))).
  { destruct (psci k) eqn:E.
    - exists off. destruct (reach_minv _ _ _ R) as (gh & MI). destruct k; try discriminate E. cbn [cmd_prog]. apply just_alike, sound0; [apply k_psci|].
      eapply agree_low_off; eassumption.
    - exists any. exact (cmd_alike c k (cpu_state m p) (cpu_state m' p) E (agree_low m m' p A)). }
  destruct K as (J & K). destruct (run (cmd_prog c (m_gr m) k) (cpu_state m p)), (run (cmd_prog c (m_gr m') k) (cpu_state m' p)); try contradiction; try exact I.
  destruct K as (L & P & _ & E). unfold same_ in E. subst. split; [reflexivity|]. eapply low_agree; [exact A|exact L|]. apply A.
Qed.

Lemma content_refl : forall x, content_agree x x.
Proof. destruct x; cbn; auto; split; auto. Qed.

Lemma set_gr_agree : forall m m' a g g', agree m m' -> granule_agree g g' -> agree (set_m_gr m a g) (set_m_gr m' a g').
Proof.
  intros m m' a g g' (A1 & A2 & A3 & A4 & A5) H. refine (conj A1 (conj A2 (conj A3 (conj A4 _)))). cbn.
  intros z. unfold upd. destruct (z =? a); [exact H|apply A5].
Qed.

Lemma host_answer : forall c h m m' a i v, agree m m' -> same_answer (step c h m (OHost a i v)) (step c h m' (OHost a i v)).
Proof.
  intros c h m m' a i v A. cbn [step]. pose proof A as (_ & _ & _ & _ & A5). destruct (A5 a) as (S & R & C). rewrite <- S.
  destruct (g_state (m_gr m a)); try exact I. destruct C as [C|[C|C]]; try discriminate C.
  destruct (g_mem (m_gr m a)), (g_mem (m_gr m' a)); try contradiction; try exact I. split; [reflexivity|].
  apply set_gr_agree; [exact A|]. split; [reflexivity|]. split; [exact R|]. right. right. intros z. cbn. unfold upd. cbn in C. rewrite (C z). reflexivity.
Qed.

(** ** What realms do *)

Lemma agree_refl : forall m, agree m m.
Proof. intros m. repeat split; auto. right. right. apply content_refl. Qed.

Lemma put_agree : forall c h m p ru r r', reachable c h m -> running_rec m p = Some (ru, r) -> rec_public r = rec_public r' -> agree m (put_m_rec m (ru_rec ru) r').
Proof.
  intros c h m p ru r r' R E P. unfold running_rec in E. destruct (m_cpu m p) as [ru0|] eqn:C; [|discriminate E].
  destruct (g_mem (m_gr m (ru_rec ru0))) as [| |r0] eqn:M; try discriminate E. injection E as -> ->.
  destruct (reach_minv _ _ _ R) as (gh & MI). destruct (mv_run _ _ _ MI p (ru_rec ru)) as (r1 & (S & M1) & _ & (_ & N & _) & _); [unfold on; rewrite C; reflexivity|].
  rewrite M in M1. injection M1 as <-.
  pose proof (agree_refl m) as (A1 & A2 & A3 & A4 & A5). refine (conj A1 (conj A2 (conj A3 (conj A4 _)))). cbn. intros z. unfold upd.
  destruct (z =? ru_rec ru) eqn:Z; [|apply A5]. apply N.eqb_eq in Z. subst z. split; [reflexivity|]. split; [reflexivity|]. cbn [g_mem g_state]. rewrite M. right. right.
  split; [exact P|congruence].
Qed.

Lemma realm_agree : forall c h m o m' rp, reachable c h m -> realm_op o = true -> step c h m o = RDone m' rp -> host_memory_same m m' -> agree m m'.
Proof.
  intros c h m o m' rp R O E H.
  assert (OK : op_ok o) by (destruct o; try discriminate O; exact I).
  destruct (next_good c h m o m' rp (conj R (conj OK E))) as (gh & gh' & labs & MI & _ & _ & OE).
  destruct o; try discriminate O; cbn [step] in E; destruct (running_rec m p) as [[ru r]|] eqn:Q; try discriminate E.
  - destruct (el10_mode pstate); [|discriminate E]. injection E as <- <-. eapply put_agree; [exact R|exact Q|reflexivity].
  - destruct (rec_xlat (m_gr m) r ipa); try discriminate E. destruct (gpt_ok _ _); [|discriminate E]. destruct (g_mem _); try discriminate E.
    injection E as <- <-. eapply put_agree; [exact R|exact Q|reflexivity].
  - destruct OE as (_ & _ & _ & ru1 & r1 & d & l & w & oa & ns & xn & f & C1 & (S1 & M1) & _ & X & _ & S & M & _).
    unfold running_rec in Q. rewrite C1, M1 in Q. injection Q as <- <-. rewrite X in E. destruct (gpt_ok _ _); [|discriminate E].
    rewrite M in E. injection E as <- <-.
    pose proof (agree_refl m) as (A1 & A2 & A3 & A4 & A5). refine (conj A1 (conj A2 (conj A3 (conj A4 _)))). cbn. intros z. unfold upd at 1.
    destruct (z =? page_of oa) eqn:Z; [|apply A5]. apply N.eqb_eq in Z. subst z. split; [reflexivity|]. split; [reflexivity|]. cbn [g_mem g_state].
    destruct ns; [|left; exact S]. right. right. specialize (H (page_of oa) S). cbn in H. unfold upd at 1 in H. rewrite N.eqb_refl in H. cbn [g_mem] in H.
    rewrite H. apply content_refl.
  - destruct (rec_xlat (m_gr m) r ipa); try discriminate E. injection E as <- <-. exact (agree_refl m).
  - destruct OE as (_ & _ & _ & ru1 & r1 & C1 & (S1 & M1) & _ & S & _). destruct (existsb _ _); [|discriminate E]. injection E as <- <-.
    pose proof (agree_refl m) as (A1 & A2 & A3 & A4 & A5). refine (conj A1 (conj A2 (conj A3 (conj A4 _)))). cbn. intros z. unfold upd.
    destruct (z =? a) eqn:Z; [|apply A5]. apply N.eqb_eq in Z. subst z. split; [reflexivity|]. split; [reflexivity|]. right. left. exact S.
Qed.

Lemma content_trans : forall x y z, content_agree x y -> content_agree y z -> content_agree x z.
Proof.
  destruct x, y, z; cbn; try contradiction; intros A B.
  - intros i. rewrite A. apply B.
  - congruence.
  - destruct A as (A1 & A2), B as (B1 & B2). split; [congruence|]. intros K.
    assert (K' : r_psci_pending r0 = true) by (unfold rec_public in A1; congruence).
    destruct (A2 K), (B2 K'). split; congruence.
Qed.
Lemma content_sym : forall x y, content_agree x y -> content_agree y x.
Proof.
  destruct x, y; cbn; try contradiction; intros A.
  - intros i. rewrite A. reflexivity.
  - congruence.
  - destruct A as (A1 & A2). split; [congruence|]. intros K.
    assert (K' : r_psci_pending r = true) by (unfold rec_public in A1; congruence). destruct (A2 K'). split; congruence.
Qed.
Lemma agree_trans : forall x y z, agree x y -> agree y z -> agree x z.
Proof.
  intros x y z (A1 & A2 & A3 & A4 & A5) (B1 & B2 & B3 & B4 & B5).
  refine (conj _ (conj _ (conj _ (conj _ _)))); intros.
  - rewrite A1; apply B1.
  - rewrite A2; apply B2.
  - rewrite A3; apply B3.
  - rewrite A4; apply B4.
  - destruct (A5 g) as (S & R & C), (B5 g) as (S' & R' & C'). split; [congruence|]. split; [congruence|].
    rewrite <- S in C'. destruct C as [C|[C|C]]; [auto|auto|]. destruct C' as [C'|[C'|C']]; [auto|auto|]. right. right. eapply content_trans; eassumption.
Qed.
Lemma agree_sym : forall x y, agree x y -> agree y x.
Proof.
  intros x y (A1 & A2 & A3 & A4 & A5). refine (conj _ (conj _ (conj _ (conj _ _)))); intros; try (symmetry; auto).
  destruct (A5 g) as (S & R & C). split; [congruence|]. split; [congruence|]. rewrite <- S.
  destruct C as [C|[C|C]]; [auto|auto|]. right. right. apply content_sym, C.
Qed.

Lemma reach_next : forall c h m o m' rp, reachable c h m -> op_ok o -> step c h m o = RDone m' rp -> reachable c h m'.
Proof.
  intros c h m o m' rp (C & mem & l & S & F) O E. split; [exact C|]. exists mem, (l ++ [(o, rp)]). split.
  - eapply steps_app; [exact S|]. econstructor; [exact E|constructor].
  - rewrite map_app. apply Forall_app. split; [exact F|]. constructor; [exact O|constructor].
Qed.

Lemma host_answer2 : forall c h m m' o, reachable c h m -> agree m m' -> host_op o = true -> same_answer (step c h m o) (step c h m' o).
Proof. intros c h m m' o R A H. destruct o; try discriminate H; [apply cmd_answer|apply host_answer]; assumption. Qed.

(** The realms first, up to the next operation of the host *)
Lemma sees_host : forall c h m o r l n, host_sees c h m ((o, r) :: l) n -> reachable c h m -> exists m1 m2, agree m m1 /\ reachable c h m1 /\
  host_op o = true /\ op_ok o /\ step c h m1 o = RDone m2 r /\ host_sees c h m2 l n.
Proof.
  intros c h m o r l n H. remember ((o, r) :: l) as z eqn:Z. revert o r l Z.
  induction H as [m|m o1 r1 m1 l1 m2 HO OK E H IH|m o1 r1 m1 l1 m2 RO E HM H IH]; intros o r l Z R; [discriminate Z| |].
  - injection Z as -> -> ->. exists m, m1. split; [apply agree_refl|]. auto 8.
  - assert (OK : op_ok o1) by (destruct o1; try discriminate RO; exact I).
    destruct (IH _ _ _ Z (reach_next _ _ _ _ _ _ R OK E)) as (x & y & A & K). exists x, y. split; [|exact K].
    eapply agree_trans; [eapply realm_agree; eassumption|exact A].
Qed.
Lemma sees_nil : forall c h m n, host_sees c h m [] n -> reachable c h m -> agree m n.
Proof.
  intros c h m n H. remember [] as z eqn:Z. induction H as [m|m o1 r1 m1 l1 m2 HO OK E H IH|m o1 r1 m1 l1 m2 RO E HM H IH]; intros R; [apply agree_refl|discriminate Z|].
  assert (OK : op_ok o1) by (destruct o1; try discriminate RO; exact I).
  eapply agree_trans; [eapply realm_agree; eassumption|]. apply IH; [exact Z|]. eapply reach_next; eassumption.
Qed.

Lemma sees_same : forall c h l l' m m' n n', host_sees c h m l n -> host_sees c h m' l' n' -> reachable c h m -> reachable c h m' -> agree m m' ->
  map fst l = map fst l' -> l = l' /\ agree n n'.
Proof.
  intros c h l. induction l as [|[o r] l IH]; intros l' m m' n n' H H' R R' A E.
  - destruct l'; [|discriminate E]. split; [reflexivity|].
    apply (agree_trans _ _ _ (agree_sym _ _ (sees_nil _ _ _ _ H R))). apply (agree_trans _ _ _ A). exact (sees_nil _ _ _ _ H' R').
  - destruct l' as [|[o' r'] l']; [discriminate E|]. injection E as <- E.
    destruct (sees_host _ _ _ _ _ _ _ H R) as (m1 & m2 & B & R1 & HO & OK & S & H2).
    destruct (sees_host _ _ _ _ _ _ _ H' R') as (m1' & m2' & B' & R1' & _ & _ & S' & H2').
    assert (A1 : agree m1 m1') by (eapply agree_trans; [apply agree_sym, B|eapply agree_trans; [exact A|exact B']]).
    pose proof (host_answer2 c h m1 m1' o R1 A1 HO) as K. rewrite S, S' in K. destruct K as (-> & A2).
    destruct (IH l' m2 m2' n n' H2 H2' (reach_next _ _ _ _ _ _ R1 OK S) (reach_next _ _ _ _ _ _ R1' OK S') A2 E) as (-> & A3). auto.
Qed.

Lemma agree_set : forall m a g, granule_agree (m_gr m a) g -> agree m (set_m_gr m a g).
Proof.
  intros m a g H. pose proof (agree_refl m) as (A1 & A2 & A3 & A4 & A5). refine (conj A1 (conj A2 (conj A3 (conj A4 _)))). cbn. intros z. unfold upd.
  destruct (z =? a) eqn:Z; [apply N.eqb_eq in Z; subst z; exact H|apply A5].
Qed.
