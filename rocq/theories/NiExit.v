(** Exits of RECs and histories in machines that agree. *)
From Coq Require Import NArith ZArith List Bool Lia ZifyBool ZifyN.
From Verif Require Import Bits S2tte S2tteFacts State Granule Wp RecFields Measure RmiRtt RmiRealm Psci RmiRec Gic Esr Rsi RecRun
  Arch ArchFacts Mmu Machine Spec SpecStep SpecAgree SpecAgree2 Inv InvTree Effects CmdLib CmdRec CmdRsi CmdRsi2 CmdRun CmdRun2
  CmdRipas InvStep InvStep2 InvStep3 Frames MInv MStep View Own Step Step5 Step7 Step8 NiFacts NiEnter NiEnter2.
Import ListNotations.
Local Open Scope N_scope.

(** ** Commands and what RECs have told *)
Lemma host_told : forall c h m o m1 rp, next c h m o m1 rp -> host_op o = true -> forall a r r1, rec_is m a r -> rec_is m1 a r1 ->
  (r_psci_pending r1 = r_psci_pending r /\ rec_told r1 = rec_told r) \/
  (r_psci_pending r = true /\ r_psci_pending r1 = false /\ exists v, r1 = finish_psci r v).
Proof.
  intros c h m o m1 rp H HO a r r1 R R1. destruct (rec_step _ _ _ _ _ _ H) as (gh & M & K). destruct (K _ _ _ R R1) as [->|C]; [left; auto|].
  destruct C as [base top x D q|p target status x rt rc' rt' -> -> NE RT RF PC|p calling status x rc rc' rt' -> -> NE RT RF PC
    |p ra e fi tm labs out n r0 r2 -> EO CP RP|p ev fi tm ru d labs n out at_ simd r2 -> CP EA RD1 RO RP|p regs sp pc pstate sys -> EX|p ipa rt v -> EX]; try discriminate HO.
  - left. split; reflexivity.
  - apply psci_cases in PC. destruct PC as [(_ & -> & _)|(P & _ & _ & v & -> & _)]; [left; auto|]. right. split; [exact P|]. split; [reflexivity|]. exists v. reflexivity.
  - apply psci_cases in PC. destruct PC as [(_ & _ & ->)|(P & _ & _ & v & _ & [(_ & [(_ & -> & _)|[(_ & _ & _ & -> & _)|(_ & _ & _ & -> & _)]])|(_ & _ & -> & _)])]; left; split; reflexivity.
Qed.

Lemma finish_told : forall r r' v v', rec_told r = rec_told r' -> r_host_call r = r_host_call r' -> rec_told (finish_psci r v) = rec_told (finish_psci r' v').
Proof.
  intros r r' v v' T E. unfold rec_told in T. assert (T0 := f_equal fst T). cbn [fst] in T0. clear T. unfold rec_told.
  change (r_host_call (finish_psci ?q _)) with (r_host_call q). rewrite <- E.
  change (r_regs (finish_psci r v) 1) with 0. change (r_regs (finish_psci r' v') 1) with 0. exact (f_equal (fun k => (k, if r_host_call r then 0 else 0)) T0).
Qed.

Lemma new_told : forall c d d' rd p n n' l, rec_told (new_rec c rec_zero d rd p n l) = rec_told (new_rec c rec_zero d' rd p n' l).
Proof. intros. reflexivity. Qed.

Lemma rec_now : forall c h m a, reachable c h m -> g_state (m_gr m a) = REC -> exists r, rec_is m a r.
Proof.
  intros c h m a R S. destruct (reach_minv _ _ _ R) as (gh0 & M0). destruct (i_rec _ _ _ _ (mv_inv _ _ _ M0) _ S) as (_ & r & d0 & Mr & _). exists r. split; assumption.
Qed.

Lemma rec_agree_is : forall m m' a r r', agree m m' -> rec_is m a r -> rec_is m' a r' -> rec_agree r r'.
Proof.
  intros m m' a r r' (_ & _ & _ & _ & A) [S M] [S' M']. destruct (A a) as (E1 & E2 & E3). rewrite M, M', S in E3. destruct E3 as [E3|[E3|E3]]; try discriminate E3. exact E3.
Qed.

Lemma host_cpu : forall c h m o m1 rp, next c h m o m1 rp -> host_op o = true -> m_cpu m1 = m_cpu m.
Proof.
  intros c h m o m1 rp H HO. destruct (next_good _ _ _ _ _ _ H) as (gh & gh' & labs & M & M' & GE & OE).
  destruct o; try discriminate HO; cbn [op_eff] in OE.
  - destruct OE as (_ & r & inv & _ & _ & _ & C & _). exact C.
  - destruct OE as (_ & _ & (_ & C & _) & _). exact C.
Qed.

Lemma host_rest : forall c h m m' o m1 m1' rp rp', next c h m o m1 rp -> next c h m' o m1' rp' -> host_op o = true -> agree_rest m m' -> agree m1 m1' -> agree_rest m1 m1'.
Proof.
  intros c h m m' o m1 m1' rp rp' H H' HO [A T] A1. split; [exact A1|]. intros a r1 r1' R1 R1' RE.
  assert (RE0 : rests m a). { unfold rests in *. rewrite (host_cpu _ _ _ _ _ _ H HO) in RE. exact RE. }
  assert (D : {g_state (m_gr m a) = REC} + {g_state (m_gr m a) <> REC}) by decide equality.
  pose proof A as (_ & _ & _ & _ & AG). destruct (AG a) as (ES & _).
  destruct D as [S|S].
  - pose proof S as S'. rewrite ES in S'. destruct (rec_now _ _ _ _ (proj1 H) S) as (r & R). destruct (rec_now _ _ _ _ (proj1 H') S') as (r' & R').
    pose proof (T _ _ _ R R' RE0) as TT. pose proof (rec_agree_is _ _ _ _ _ A R R') as [PU _]. pose proof (rec_agree_is _ _ _ _ _ A1 R1 R1') as [PU1 _].
    apply public_rec in PU. apply public_rec in PU1. destruct PU as (_ & _ & _ & _ & _ & Q1 & _ & Q2 & _), PU1 as (_ & _ & _ & _ & _ & Q3 & _).
    destruct (host_told _ _ _ _ _ _ H HO _ _ _ R R1) as [(E1 & E2)|(E1 & E2 & v & E3)], (host_told _ _ _ _ _ _ H' HO _ _ _ R' R1') as [(F1 & F2)|(F1 & F2 & v' & F3)]; try congruence.
    subst. apply finish_told; assumption.
  - pose proof S as S'. rewrite ES in S'. destruct (rec_new _ _ _ _ _ _ H _ _ R1 S) as (p & rd & pa & x & d & (q & D1 & _) & _ & ->). destruct (rec_new _ _ _ _ _ _ H' _ _ R1' S') as (p' & rd' & pa' & x' & d' & (q' & D1' & _) & _ & ->).
    rewrite D1 in D1'. injection D1' as _ <- <- <-. apply new_told.
Qed.

(** ** Exits *)
Lemma exit_shape : forall c h gh G d ev v simd labs v1 simd' go, exit_out c h gh G d ev v simd labs (v1, simd', go) ->
  labs = [] \/ (exists g f, labs = [LFree g (mkG DATA 0 (CW f))]) \/
  (exists d', labs = [LRd (r_g_rd (v_rec v)) d d'] /\ rd_public d' = rd_public (set_rd_state d (rd_state d')) /\ (go = true -> rd_state d' = rd_state d)).
Proof.
  intros c h gh G d ev v simd labs v1 simd' go H. remember (v1, simd', go) as o eqn:Eo.
  destruct H as [| | |r' He Hr|r' x' sd go' Hx He Hs|labs o Hx He Hs]; auto.
  destruct Hs; auto.
  - right. left. eauto.
  - right. right. eexists. split; [reflexivity|]. split; [reflexivity|]. reflexivity.
  - right. right. eexists. split; [reflexivity|]. split; [reflexivity|]. intros ->. exfalso. apply (f_equal snd) in Eo. discriminate Eo.
Qed.

Lemma lab_rec : forall c gh G V a r r' n gh' G' V', geff c gh G V (LRec a r r' n) gh' G' V' -> V' = V /\ forall z, z <> a -> G' z = G z.
Proof. intros c gh G V a r r' n gh' G' V' H. inversion H; subst. auto. Qed.
Lemma lab_free : forall c gh G V g x gh' G' V', geff c gh G V (LFree g x) gh' G' V' ->
  V' = V /\ G' g = x /\ (forall z, z <> g -> G' z = G z) /\ ((fr (G g) /\ fr x) \/ word_change (G g) x).
Proof. intros c gh G V g x gh' G' V' H. inversion H; subst. split; [reflexivity|]. split; [reflexivity|]. split; [assumption|]. tauto. Qed.
Lemma lab_rd : forall c gh G V rd d d' gh' G' V', geff c gh G V (LRd rd d d') gh' G' V' ->
  V' = V /\ G' rd = mkG RD (g_ref (G rd)) (CRd d') /\ forall z, z <> rd -> G' z = G z.
Proof. intros c gh G V rd d d' gh' G' V' H. inversion H; subst. auto. Qed.
Lemma geffs_1 : forall c gh G V lab gh' G' V', geffs c gh G V [lab] gh' G' V' -> exists G1 V1, geff c gh G V lab gh' G1 V1 /\ (forall z, G' z = G1 z) /\ (forall z, V' z = V1 z).
Proof. intros c gh G V lab gh' G' V' H. inversion H as [|? ? ? ? gh1 G1 V1 ? ? ? ? X1 X2]; subst. inversion X2; subst. eauto. Qed.
Lemma gagree_refl : forall g, granule_agree g g.
Proof. intros g. split; [reflexivity|]. split; [reflexivity|]. right. right. apply content_refl. Qed.
Lemma gagree_trans : forall g g' g'', granule_agree g g' -> granule_agree g' g'' -> granule_agree g g''.
Proof.
  intros g g' g'' (H1 & H2 & H3) (K1 & K2 & K3). split; [congruence|]. split; [congruence|]. rewrite <- H1 in K3.
  destruct H3 as [H3|[H3|H3]]; auto. destruct K3 as [K3|[K3|K3]]; auto. right. right. eapply content_trans; eassumption.
Qed.

Definition ret_ref (rp : reply) : N := match rp with Entered => 1 | _ => 0 end.

Lemma exit_public : forall c h m p ev fi tm m1 rp, next c h m (OExit p ev fi tm) m1 rp -> exists ru r d r1 d1,
  m_cpu m p = Some ru /\ let a := ru_rec ru in rec_is m a r /\ realm m (r_g_rd r) d /\ realm m1 (r_g_rd r) d1 /\ g_ref (m_gr m1 (r_g_rd r)) = g_ref (m_gr m (r_g_rd r)) /\
  m_gr m1 a = mkG REC (ret_ref rp) (CRec r1) /\ r_g_rd r1 = r_g_rd r /\ no_request r /\ rd_public d1 = rd_public (set_rd_state d (rd_state d1)) /\
  (forall v, m_vmids m1 v = m_vmids m v) /\ (forall g, g <> a -> g <> r_g_rd r -> granule_agree (m_gr m g) (m_gr m1 g)) /\
  (forall g, g <> a -> g_state (m_gr m g) = REC \/ g_state (m_gr m1 g) = REC -> m_gr m1 g = m_gr m g) /\
  (rp = Entered -> rec_public r1 = rec_public r /\ rd_state d1 = rd_state d) /\
  ((rp = Entered /\ forall q, option_map ru_rec (m_cpu m1 q) = option_map ru_rec (m_cpu m q)) \/ (exists ret x, rp = Exited ret x) /\ m_cpu m1 = upd (m_cpu m) p None).
Proof.
  intros c h m p ev fi tm m1 rp H. destruct (next_good _ _ _ _ _ _ H) as (gh & gh' & labs & M & M' & GE & OE). cbn [op_eff] in OE.
  destruct OE as (-> & ru & r & d & out & at_ & simd & CP & RR & R & RO & _ & _ & RP). pose proof (mv_inv _ _ _ M) as I.
  assert (NR : no_request r).
  { destruct (mv_run _ _ _ M p (ru_rec ru)) as (r0 & R0 & _ & NR & _); [unfold on; rewrite CP; reflexivity|]. assert (r0 = r) by (destruct R0, RR; congruence). subst r0. exact NR. }
  assert (K : exists labs0 v1 simd' go r1, labs = labs0 ++ [LRec (ru_rec ru) r r1 (ret_ref rp)] /\ exit_out c h gh (m_gr m) d ev (mkV r (ru_exit ru) (m_att m (ru_rec ru))) (ru_simd ru) labs0 (v1, simd', go) /\
     core r1 = core (v_rec v1) /\ (rp = Entered -> go = true) /\
     ((rp = Entered /\ forall q, option_map ru_rec (m_cpu m1 q) = option_map ru_rec (m_cpu m q)) \/ (exists ret x, rp = Exited ret x) /\ m_cpu m1 = upd (m_cpu m) p None)).
  { remember (out, at_, simd) as o eqn:Eo. destruct RO as [labs v1 simd' l EX El Hl|labs v1 simd' l v' EX El Hl Ev|labs v1 simd' v' EX Ev]; injection Eo as <- <- <-.
    - destruct RP as [-> RP]. exists labs, v1, simd', true. eexists. split; [reflexivity|]. split; [exact EX|]. split; [subst l; apply head_core|]. split; [auto|]. left. split; [reflexivity|].
      intros q. rewrite RP. unfold upd. destruct (N.eqb_spec q p) as [->|]; [rewrite CP; reflexivity|reflexivity].
    - assert (RP1 : (exists ret x, rp = Exited ret x) /\ m_cpu m1 = upd (m_cpu m) p None) by (unfold answer in RP; destruct (fi_wok fi); destruct RP as [-> RP]; eauto).
      destruct RP1 as [(ret & x & ->) RP1]. exists labs, v1, simd', true. eexists. split; [reflexivity|]. split; [exact EX|]. split; [subst l v'; rewrite end_core, head_core; reflexivity|]. split; [discriminate|]. right. eauto.
    - assert (RP1 : (exists ret x, rp = Exited ret x) /\ m_cpu m1 = upd (m_cpu m) p None) by (unfold answer in RP; destruct (fi_wok fi); destruct RP as [-> RP]; eauto).
      destruct RP1 as [(ret & x & ->) RP1]. exists labs, v1, simd', false. eexists. split; [reflexivity|]. split; [exact EX|]. split; [subst v'; rewrite end_core; reflexivity|]. split; [discriminate|]. right. eauto. }
  clear RO RP. destruct K as (labs0 & v1 & simd' & go & r1 & -> & EX & CR & GO & CPU).
  destruct (geffs_last _ _ _ _ _ _ _ _ _ GE I) as (gh1 & G1 & V1 & G2 & V2 & GE1 & GL & HG & HV & I1).
  destruct (rec_last _ _ _ _ _ _ _ _ _ _ _ _ GE I) as (LA & _ & LG).
  destruct (lab_rec _ _ _ _ _ _ _ _ _ _ _ GL) as [-> G21].
  assert (NA : r_g_rd r <> ru_rec ru). { intros E. destruct R as [S1 _], RR as [S2 _]. rewrite E in S1. congruence. }
  assert (FR : exists d1, is_rd G1 (r_g_rd r) d1 /\ g_ref (G1 (r_g_rd r)) = g_ref (m_gr m (r_g_rd r)) /\ rd_public d1 = rd_public (set_rd_state d (rd_state d1)) /\ (go = true -> rd_state d1 = rd_state d) /\
     (forall v, V1 v = m_vmids m v) /\ (forall g, g <> r_g_rd r -> granule_agree (m_gr m g) (G1 g)) /\
     (forall g, g_state (m_gr m g) = REC \/ g_state (G1 g) = REC -> G1 g = m_gr m g)).
  { assert (ID : rd_public d = rd_public (set_rd_state d (rd_state d))) by reflexivity.
    destruct (exit_shape _ _ _ _ _ _ _ _ _ _ _ _ EX) as [->|[(g & f & ->)|(d' & -> & PU & ST)]].
    - inversion GE1 as [? ? ? ? ? HG0 HV0|]; subst. exists d. unfold is_rd. rewrite !HG0. split; [exact R|]. split; [reflexivity|]. split; [exact ID|]. split; [reflexivity|]. split; [exact HV0|].
      split; [|intros g _; apply HG0]. intros g _. rewrite HG0. apply gagree_refl.
    - destruct (geffs_1 _ _ _ _ _ _ _ _ GE1) as (G3 & V3 & X1 & HG0 & HV0). destruct (lab_free _ _ _ _ _ _ _ _ _ X1) as (-> & E1 & E2 & E3).
      assert (S : g_state (m_gr m g) = DATA /\ g_ref (m_gr m g) = 0).
      { destruct E3 as [(_ & E3)|(_ & f0 & E3)]; [destruct E3 as [(E3 & _)|E3]; discriminate E3|]. injection E3 as E3 E4 _. auto. }
      destruct S as [S1 S2]. assert (NG : r_g_rd r <> g) by (intros E; destruct R as [S3 _]; rewrite E in S3; congruence).
      exists d. unfold is_rd. rewrite !HG0. rewrite !(E2 _ NG). split; [exact R|]. split; [reflexivity|]. split; [exact ID|]. split; [reflexivity|]. split; [exact HV0|]. split.
      + intros z _. rewrite HG0. destruct (N.eq_dec z g) as [->|nz]; [rewrite E1|rewrite (E2 _ nz); apply gagree_refl]. split; [exact S1|]. split; [exact S2|]. left. exact S1.
      + intros z Hz. rewrite HG0 in *. destruct (N.eq_dec z g) as [->|nz]; [|apply (E2 _ nz)]. exfalso. rewrite E1, S1 in Hz. destruct Hz as [Hz|Hz]; discriminate Hz.
    - destruct (geffs_1 _ _ _ _ _ _ _ _ GE1) as (G3 & V3 & X1 & HG0 & HV0). destruct (lab_rd _ _ _ _ _ _ _ _ _ _ X1) as (-> & E1 & E2). cbn [v_rec] in E1, E2.
      exists d'. unfold is_rd. rewrite !HG0, !E1. split; [split; reflexivity|]. split; [reflexivity|]. split; [exact PU|]. split; [exact ST|]. split; [exact HV0|]. split.
      + intros z nz. rewrite HG0, (E2 _ nz). apply gagree_refl.
      + intros z Hz. rewrite HG0 in *. destruct (N.eq_dec z (r_g_rd r)) as [->|nz]; [|apply (E2 _ nz)]. exfalso. rewrite E1 in Hz. destruct R as [S _]. rewrite S in Hz. destruct Hz as [Hz|Hz]; discriminate Hz. }
  destruct FR as (d1 & F1 & F2 & F3 & F4 & F5 & F6 & F7).
  assert (H1 : forall z, z <> ru_rec ru -> m_gr m1 z = G1 z) by (intros z nz; rewrite HG; apply G21, nz).
  exists ru, r, d, r1, d1. split; [exact CP|]. cbv zeta. split; [exact RR|]. split; [exact R|]. split; [unfold realm; rewrite (H1 _ NA); exact F1|]. split; [rewrite (H1 _ NA); exact F2|].
  split; [exact LA|]. split; [exact LG|]. split; [exact NR|]. split; [exact F3|]. split; [intro v; rewrite HV; apply F5|].
  split; [intros g n1 n2; rewrite (H1 _ n1); apply F6, n2|]. split; [intros g n1; rewrite (H1 _ n1); apply F7|]. split; [|exact CPU].
  intros ER. specialize (GO ER). split; [|apply F4, GO]. subst go.
  pose proof (exit_pend _ _ _ _ _ _ _ _ _ _ _ _ EX) as P. cbv zeta in P. cbn [v_rec] in P. destruct P as [P|(_ & _ & P & _)]; [|discriminate P].
  apply core_parts in CR. destruct CR as (C1 & C2 & _). rewrite P in C2.
  assert (IDT : ident (v_rec v1) = ident r).
  { destruct RR as [SR MR]. destruct (i_rec _ _ _ _ I _ SR) as (_ & rc & d0 & Mr & Rd0 & OK & _). assert (rc = r) by congruence. subst rc. assert (d0 = d) by (destruct Rd0, R; congruence). subst d0.
    destruct (exit_keeps _ _ _ _ _ _ _ _ _ _ EX (par_size _ _ _ _ I _ _ R) (proj1 OK) NR) as (K1 & _); [apply OK|apply (mv_pend _ _ _ M (ru_rec ru) r (conj SR MR))|apply (mv_att _ _ _ M)|exact K1]. }
  rewrite IDT in C1. unfold ident in C1. unfold pend in C2. unfold rec_public. injection C1 as -> -> -> -> -> -> -> -> _ -> -> -> ->. injection C2 as -> -> -> ->. reflexivity.
Qed.

(** ** Machines step by step *)
Lemma rest_sym : forall m m', agree_rest m m' -> agree_rest m' m.
Proof.
  intros m m' [A T]. split; [apply agree_sym, A|]. intros a r r' R R' RE. symmetry. apply (T a r' r R' R). apply (rests_agree m'); [apply agree_sym, A|exact RE].
Qed.

Lemma rest_one : forall m m1, agree m m1 -> (forall a r1, rests m1 a -> rec_is m1 a r1 -> rec_is m a r1) -> forall m', agree_rest m m' -> agree_rest m1 m'.
Proof.
  intros m m1 A K m' [A' T]. split; [eapply agree_trans; [apply agree_sym, A|exact A']|]. intros a r r' R R' RE. apply (T a r r'); [apply K; assumption|exact R'|].
  apply (rests_agree m1); [apply agree_sym, A|exact RE].
Qed.

Lemma realm_rest : forall c h m o m1 rp, next c h m o m1 rp -> realm_act o rp = true -> host_memory_same m m1 -> forall m', agree_rest m m' -> agree_rest m1 m'.
Proof.
  intros c h m o m1 rp H RA HM. assert (D : (exists p ev fi tm, o = OExit p ev fi tm) \/ realm_op o = true) by (destruct o; try discriminate RA; eauto 6).
  destruct D as [(p & ev & fi & tm & ->)|RO].
  - cbn [realm_act] in RA. destruct rp as [| | |ret x]; try discriminate RA.
    destruct (exit_public _ _ _ _ _ _ _ _ _ H) as (ru & r & d & r1 & d1 & CP & H1). cbv zeta in H1. destruct H1 as (RR & R & R1 & RF & LA & LG & NR & F3 & F5 & F6 & F7 & F8 & CPU).
    destruct (F8 eq_refl) as [PU ST]. destruct CPU as [(_ & CPU)|((ret & x & K) & _)]; [|discriminate K].
    destruct (next_good _ _ _ _ _ _ H) as (gh & gh' & labs & M & M' & _ & _).
    apply rest_one.
    + eapply agree_of; [exact M|exact M'|intro; symmetry; apply F5|intro; symmetry; apply CPU|].
      intros g. destruct (N.eq_dec g (ru_rec ru)) as [->|n1].
      * rewrite LA. destruct (mv_run _ _ _ M p (ru_rec ru)) as (r0 & [S0 M0] & RF0 & _); [unfold on; rewrite CP; reflexivity|]. destruct RR as [SR MR].
        split; [exact SR|]. split; [exact RF0|]. right. right. rewrite MR. split; [symmetry; exact PU|]. intros X. destruct NR as (_ & NR & _). congruence.
      * destruct (N.eq_dec g (r_g_rd r)) as [->|n2]; [|apply F6; assumption]. destruct R as [S0 M0], R1 as [S1 M1]. split; [congruence|]. split; [congruence|]. right. right. rewrite M0, M1.
        cbn [content_agree]. rewrite F3, ST. reflexivity.
    + intros a r2 RE [S2 M2]. assert (NE : a <> ru_rec ru). { intros ->. apply (RE p). rewrite CPU, CP. reflexivity. }
      pose proof (F7 a NE (or_intror S2)) as E. rewrite E in S2, M2. split; assumption.
  - assert (A : agree m m1) by (eapply realm_agree; [apply (proj1 H)|exact RO|apply (proj2 (proj2 H))|exact HM]).
    apply rest_one; [exact A|]. intros a r1 RE R1. destruct (rec_step _ _ _ _ _ _ H) as (gh & M & K). pose proof (proj1 R1) as S1. pose proof A as (_ & _ & _ & AC & AG). destruct (AG a) as (ES & _).
    assert (S : g_state (m_gr m a) = REC) by congruence. destruct (rec_now _ _ _ _ (proj1 H) S) as (r & R). destruct (K _ _ _ R R1) as [->|C]; [exact R|].
    exfalso. assert (EXN : forall p, executes m p a -> False). { intros p (ru & CP & EA). apply (RE p). rewrite <- AC, CP. cbn [option_map]. congruence. }
    destruct C as [base top x (q & D & _) q0|p target status x rt rc' rt' -> -> NE RT RF PC|p calling status x rc rc' rt' -> -> NE RT RF PC
      |p ra e fi tm labs out n r0 r2 -> EO CP RP|p ev fi tm ru d labs n out at_ simd r2 -> CP EA RD1 RO1 RP|p regs sp pc pstate sys -> EX|p ipa rt v -> EX]; try discriminate RO; try (apply (EXN _ EX)).
    rewrite D in RO. discriminate RO.
Qed.

Lemma left_same : forall c h m m' p ev ev' fi fi' tm tm' m1 m1' ret ret' x x' ru ru' r r' d d',
  next c h m (OExit p ev fi tm) m1 (Exited ret x) -> next c h m' (OExit p ev' fi' tm') m1' (Exited ret' x') -> agree_rest m m' ->
  m_cpu m p = Some ru -> m_cpu m' p = Some ru' -> rec_is m1 (ru_rec ru) r -> rec_is m1' (ru_rec ru') r' -> realm m1 (r_g_rd r) d -> realm m1' (r_g_rd r') d' ->
  rec_shown r = rec_shown r' -> rd_state d = rd_state d' -> agree_rest m1 m1'.
Proof.
  intros c h m m' p ev ev' fi fi' tm tm' m1 m1' ret ret' x x' ru ru' r r' d d' H H' AR CP CP' RI RI' RD RD' SH ST. pose proof AR as [A T]. pose proof A as (_ & _ & AV & AC & AG).
  destruct (exit_public _ _ _ _ _ _ _ _ _ H) as (ru0 & r0 & d0 & r1 & d1 & CP0 & H1). cbv zeta in H1. destruct H1 as (RR & R & R1 & RF & LA & LG & NR & F3 & F5 & F6 & F7 & _ & CPU).
  destruct (exit_public _ _ _ _ _ _ _ _ _ H') as (ru0' & r0' & d0' & r1' & d1' & CP0' & H1'). cbv zeta in H1'. destruct H1' as (RR' & R' & R1' & RF' & LA' & LG' & NR' & F3' & F5' & F6' & F7' & _ & CPU').
  rewrite CP in CP0. apply some_inj in CP0. subst ru0. rewrite CP' in CP0'. apply some_inj in CP0'. subst ru0'.
  destruct CPU as [(K & _)|(_ & CPU)]; [discriminate K|]. destruct CPU' as [(K & _)|(_ & CPU')]; [discriminate K|].
  assert (EA : ru_rec ru' = ru_rec ru). { pose proof (AC p) as K. rewrite CP, CP' in K. cbn [option_map] in K. congruence. }
  rewrite EA in *. pose proof (rec_agree_is _ _ _ _ _ A RR RR') as [PU _]. apply public_rec in PU. destruct PU as (_ & _ & _ & PG & _).
  assert (r = r1) by (destruct RI as [_ K]; rewrite LA in K; cbn [g_mem] in K; congruence). subst r1.
  assert (r' = r1') by (destruct RI' as [_ K]; rewrite LA' in K; cbn [g_mem] in K; congruence). subst r1'.
  assert (d = d1) by (rewrite LG in RD; destruct RD, R1; congruence). subst d1.
  assert (d' = d1') by (rewrite LG' in RD'; destruct RD', R1'; congruence). subst d1'.
  unfold rec_shown in SH. assert (SH1 := f_equal (fun k => fst (fst k)) SH). assert (SH2 := f_equal (fun k => snd (fst k)) SH). assert (SH3 := f_equal snd SH). cbn [fst snd] in SH1, SH2, SH3. clear SH.
  destruct (next_good _ _ _ _ _ _ H) as (gh & gh1 & labs & M & M1 & _ & _). destruct (next_good _ _ _ _ _ _ H') as (gh' & gh1' & labs' & M' & M1' & _ & _).
  rewrite <- PG in *. split.
  - eapply agree_of; [exact M1|exact M1'|intro v; rewrite F5, F5'; apply AV| |].
    + intros q. rewrite CPU, CPU'. unfold upd. destruct (q =? p); [reflexivity|apply AC].
    + intros g. destruct (N.eq_dec g (ru_rec ru)) as [->|n1].
      * rewrite LA, LA'. split; [reflexivity|]. split; [reflexivity|]. right. right. split; [exact SH1|]. intros X. pose proof (public_rec _ _ SH1) as (_ & _ & _ & _ & _ & Q & _).
        rewrite <- Q, X in SH3. injection SH3 as -> ->. auto.
      * destruct (N.eq_dec g (r_g_rd r0)) as [->|n2].
        -- destruct R as [S0 M0], R' as [S0' M0'], R1 as [S1 M2], R1' as [S1' M2']. split; [congruence|]. destruct (AG (r_g_rd r0)) as (_ & E2 & E3). split; [congruence|]. right. right. rewrite M2, M2'.
           cbn [content_agree]. rewrite F3, F3', ST. rewrite S0, M0, M0' in E3. destruct E3 as [E3|[E3|E3]]; try discriminate E3. cbn [content_agree] in E3.
           unfold rd_public in *. cbn [set_rd_state rd_state rd_rec_count rd_ctx rd_num_rec_aux rd_algorithm rd_pmu_enabled rd_pmu_num_ctrs rd_simd rd_rpv] in *.
           injection E3 as _ -> -> -> -> -> -> -> ->. reflexivity.
        -- eapply gagree_trans; [apply gagree_sym, F6; assumption|]. eapply gagree_trans; [apply AG|apply F6'; assumption].
  - intros b q q' B B' RE. destruct (N.eq_dec b (ru_rec ru)) as [->|n1].
    + assert (q = r) by (destruct B, RI; congruence). assert (q' = r') by (destruct B', RI'; congruence). subst q q'. exact SH2.
    + destruct B as [S1 X1], B' as [S1' X1']. pose proof (F7 b n1 (or_intror S1)) as E. pose proof (F7' b n1 (or_intror S1')) as E'. rewrite E in S1, X1. rewrite E' in S1', X1'.
      apply (T b q q'); [split; assumption|split; assumption|]. intros z Ez. apply (RE z). rewrite CPU. unfold upd. destruct (N.eqb_spec z p) as [->|]; [|exact Ez]. rewrite CP in Ez. cbn [option_map] in Ez. congruence.
Qed.

(** ** Histories *)
Lemma hist_split : forall c h m l n, history c h m l n -> reachable c h m -> exists m1, reachable c h m1 /\ (forall m', agree_rest m m' -> agree_rest m1 m') /\
  match l with
  | [] => n = m1
  | Asked o r :: l' => exists m2, host_act o = true /\ op_ok o /\ step c h m1 o = RDone m2 r /\ history c h m2 l' n
  | Left p a r d :: l' => exists ev fi tm ru ret x m2, op_ok (OExit p ev fi tm) /\ step c h m1 (OExit p ev fi tm) = RDone m2 (Exited ret x) /\
      m_cpu m1 p = Some ru /\ a = ru_rec ru /\ rec_is m2 a r /\ realm m2 (r_g_rd r) d /\ history c h m2 l' n
  end.
Proof.
  intros c h m l n H. induction H as [m|m o r m1 l m2 HA OK ST H IH|m o r m1 l m2 HA OK ST HM H IH|m p ev fi tm ru ret x m1 r d l m2 OK ST CP RI RD H IH]; intros RC.
  - exists m. auto.
  - exists m. split; [exact RC|]. split; [auto|]. exists m1. auto.
  - destruct (IH (reach_next _ _ _ _ _ _ RC OK ST)) as (m3 & R3 & A3 & K). exists m3. split; [exact R3|]. split; [|exact K].
    intros m' A. apply A3. eapply realm_rest; [split; [exact RC|split; [exact OK|exact ST]]|exact HA|exact HM|exact A].
  - exists m. split; [exact RC|]. split; [auto|]. exists ev, fi, tm, ru, ret, x, m1. auto 10.
Qed.

Lemma ask_same : forall c h m m' o m1 m1' r r', reachable c h m -> reachable c h m' -> agree_rest m m' -> host_act o = true -> op_ok o ->
  step c h m o = RDone m1 r -> step c h m' o = RDone m1' r' -> reply_same r r' /\ agree_rest m1 m1'.
Proof.
  intros c h m m' o m1 m1' r r' R R' A HA OK ST ST'.
  assert (D : (exists p a ra en fi tm, o = OEnter p a ra en fi tm) \/ host_op o = true) by (destruct o; try discriminate HA; [right|left|right]; eauto 8).
  destruct D as [(p & a & ra & en & fi & tm & ->)|HO].
  - destruct (reach_minv _ _ _ R) as (gh & M). destruct (reach_minv _ _ _ R') as (gh' & M'). exact (enter_same _ _ _ _ _ _ _ _ _ _ _ _ _ _ _ _ M M' A ST ST').
  - pose proof (host_answer2 c h m m' o R (proj1 A) HO) as K. rewrite ST, ST' in K. destruct K as [-> K]. split.
    + destruct r' as [| | |ret [x|]]; try reflexivity. split; [reflexivity|apply exit_same_refl].
    + eapply (host_rest c h m m'); [split; [exact R|split; [exact OK|exact ST]]|split; [exact R'|split; [exact OK|exact ST']]|exact HO|exact A|exact K].
Qed.

Lemma history_same : forall c h l l' m m' n n', history c h m l n -> history c h m' l' n' -> reachable c h m -> reachable c h m' -> agree_rest m m' ->
  Forall2 same_event l l' -> Forall2 same_reply l l' /\ agree_rest n n'.
Proof.
  intros c h l. induction l as [|e l IH]; intros l' m m' n n' H H' R R' A F.
  - inversion F; subst. destruct (hist_split _ _ _ _ _ H R) as (m1 & R1 & A1 & ->). destruct (hist_split _ _ _ _ _ H' R') as (m1' & R1' & A1' & ->).
    split; [constructor|]. apply rest_sym, A1', rest_sym, A1, A.
  - inversion F as [|? e' ? l0 E F0]; subst. destruct (hist_split _ _ _ _ _ H R) as (m1 & R1 & A1 & K). destruct (hist_split _ _ _ _ _ H' R') as (m1' & R1' & A1' & K').
    assert (A2 : agree_rest m1 m1') by (apply rest_sym, A1', rest_sym, A1, A). clear A1 A1' H H' A R R'.
    destruct e as [o r|p a r d], e' as [o' r'|p' a' r' d']; try contradiction.
    + cbn [same_event] in E. subst o'. destruct K as (m2 & HA & OK & ST & H). destruct K' as (m2' & _ & _ & ST' & H').
      destruct (ask_same _ _ _ _ _ _ _ _ _ R1 R1' A2 HA OK ST ST') as [RS A3].
      destruct (IH l0 m2 m2' n n' H H') as [K1 K2]; [exact (reach_next _ _ _ _ _ _ R1 OK ST)|exact (reach_next _ _ _ _ _ _ R1' OK ST')|exact A3|exact F0|]. split; [constructor; assumption|exact K2].
    + cbn [same_event] in E. destruct E as (<- & <- & SH & SD). destruct K as (ev & fi & tm & ru & ret & x & m2 & OK & ST & CP & EA & RI & RD & H).
      destruct K' as (ev' & fi' & tm' & ru' & ret' & x' & m2' & OK' & ST' & CP' & EA' & RI' & RD' & H'). subst a. rewrite EA' in RI'.
      assert (A3 : agree_rest m2 m2').
      { eapply (left_same c h m1 m1'); [split; [exact R1|split; [exact OK|exact ST]]|split; [exact R1'|split; [exact OK'|exact ST']]|exact A2|exact CP|exact CP'|exact RI|exact RI'|exact RD|exact RD'|exact SH|exact SD]. }
      destruct (IH l0 m2 m2' n n' H H') as [K1 K2]; [exact (reach_next _ _ _ _ _ _ R1 OK ST)|exact (reach_next _ _ _ _ _ _ R1' OK' ST')|exact A3|exact F0|]. split; [constructor; [exact Logic.I|assumption]|exact K2].
Qed.
