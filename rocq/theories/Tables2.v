(** Results of commands that are about one entry (C27, C28), new realms (C33,
    C38) and when commands succeed (C51). *)
From Coq Require Import NArith ZArith List Bool Lia ZifyBool ZifyN.
From Verif Require Import Bits S2tte S2tteFacts State Granule Wp RecFields Measure RmiRtt RmiRealm Psci RmiRec Gic Esr Rsi RecRun
  Arch ArchFacts Mmu Machine Spec SpecStep SpecExit SpecRec SpecTables Inv InvTree MmuFacts InvStep InvStep2 InvStep3 Effects Frames CmdLib CmdData CmdRipas
  CmdRtt CmdFold CmdRtt2 CmdNs CmdRec CmdRealm CmdRsi2 CmdRun CmdRun2 CmdAll MInv MStep View StepView Own ExitFacts Step Step2 Step10 Tables.
Import ListNotations.
Local Open Scope N_scope.

Lemma cmd_case : forall c h m p k m' r, next c h m (OCmd p k) m' (Reply r) -> exists gh gh' labs inv,
  MInv c gh m /\ MInv c gh' m' /\ geffs c gh (m_gr m) (m_vmids m) labs gh' (m_gr m') (m_vmids m') /\
  cmd_eff c gh (m_gr m) (m_vmids m) k r gh' labs inv /\
  (labs = [] -> inv = [] -> k <> KRecDestroy (match k with KRecDestroy a => a | _ => 0 end) -> (forall a, m_att m' a = m_att m a) -> same m m') /\ m_att m' = att_after k r (m_att m).
Proof.
  intros c h m p k m' r H. destruct (next_good _ _ _ _ _ _ H) as (gh & gh' & labs & M & M' & GE & OE).
  destruct OE as (_ & r0 & inv & E & K & ET & EC & EA). injection E as <-. exists gh, gh', labs, inv.
  split; [exact M|]. split; [exact M'|]. split; [exact GE|]. split; [exact K|]. split; [|exact EA].
  intros -> -> _ AT. inversion GE as [? ? ? ? ? HG HV|]; subst. destruct (minv_same _ _ _ _ _ M M' EC) as (E1 & E2). unfold same. auto 8.
Qed.

Lemma realm_fun : forall m a d d', realm m a d -> realm m a d' -> d' = d.
Proof. intros m a d d' [_ A] [_ B]. congruence. Qed.

Lemma ms_lsb : forall l, (-1 <= l <= 3)%Z -> 2 ^ arch_lsb l = ms l.
Proof. intros. rewrite arch_lsb_eq by assumption. reflexivity. Qed.

(* ------------------------------------------------------------------ *)
(** * RTT_READ_ENTRY *)

Lemma read_entry : forall c h m p rd ipa ul m' r, next c h m (OCmd p (KRttReadEntry rd ipa ul)) m' (Reply r) ->
  same m m' /\
  (x0 r = 0 /\ (exists d a l w, realm m rd d /\ (s2_sl (rd_ctx d) <= sgn64 ul <= 3)%Z /\ starts d ipa (sgn64 ul) /\
     entry_at (m_gr m) (rd_ctx d) ipa (sgn64 ul) = Some (a, l, w) /\ x1 r = level_word l /\ (x2 r, x3 r, x4 r) = describe (enable_lpa2 (rd_ctx d)) l w) \/
   x0 r = 1 /\ ~ exists d, realm m rd d /\ (s2_sl (rd_ctx d) <= sgn64 ul <= 3)%Z /\ starts d ipa (sgn64 ul)).
Proof.
  intros c h m p rd ipa ul m' r H. destruct (cmd_case _ _ _ _ _ _ _ H) as (gh & gh' & labs & inv & M & M' & GE & K & SM & EA). pose proof (mv_inv _ _ _ M) as I.
  cbn [att_after] in EA. unfold cmd_eff in K. cbv zeta in K. destruct K as [(NZ & (-> & -> & _) & E1 & N)|(OK & -> & -> & _ & d & wi & R & Hl & Ha & Al & W & X1 & X2)].
  - split; [apply SM; try reflexivity; [discriminate|rewrite EA; reflexivity]|]. right. split; [exact E1|]. intros (d & R & Hl & S1 & S2). apply N. exists d.
    pose proof (ctx_sl _ (inv_ctx _ _ _ _ I _ _ R)). rewrite ms_lsb in S2 by lia. auto.
  - split; [apply SM; try reflexivity; [discriminate|rewrite EA; reflexivity]|]. left. split; [exact OK|].
    pose proof (ctx_sl _ (inv_ctx _ _ _ _ I _ _ R)) as SL.
    exists d. eexists _, _, _. split; [exact R|]. split; [exact Hl|]. split; [split; [exact Ha|rewrite ms_lsb by lia; exact Al]|].
    split; [eapply entry_walk; eassumption|]. split; [exact X1|]. rewrite X2. symmetry. destruct W as (O & Ei & Hl2 & _).
    apply describe_enc; [lia|]. rewrite Ei. eapply t_entries; [eapply (inv_own _ _ _ _ I); eassumption|apply mod512_lt].
Qed.

(* ------------------------------------------------------------------ *)
(** * The entry a label is about *)

Definition lab_at (lab : label) : option (N * Z * N) :=
  match lab with
  | LEntry rd l n _ _ | LAttach rd l n _ _ | LFold rd l n _ _ | LDestroy rd l n _ _ => Some (rd, l, n)
  | LAssign rd n _ _ _ _ | LRelease rd n _ _ _ => Some (rd, 3%Z, n)
  | _ => None
  end.
Definition lab_old (lab : label) : entry :=
  match lab with
  | LEntry _ _ _ e _ | LAttach _ _ _ e _ | LAssign _ _ e _ _ _ | LRelease _ _ e _ _ => e
  | LFold _ _ _ _ b | LDestroy _ _ _ _ b => ETable b
  | _ => EUnEmpty
  end.
Definition lab_new (lab : label) : entry :=
  match lab with
  | LEntry _ _ _ _ e' | LAssign _ _ _ e' _ _ | LRelease _ _ _ e' _ | LFold _ _ _ e' _ | LDestroy _ _ _ e' _ => e'
  | LAttach _ _ _ _ b => ETable b
  | _ => EUnEmpty
  end.

Lemma div512_of : forall t i, i < 512 -> (512 * t + i) / 512 = t.
Proof. intros. lia. Qed.
Lemma mod512_of : forall t i, i < 512 -> (512 * t + i) mod 512 = i.
Proof. intros. lia. Qed.

Lemma some3 : forall A B C (a a' : A) (b b' : B) (c c' : C), Some (a, b, c) = Some (a', b', c') -> a = a' /\ b = b' /\ c = c'.
Proof. intros. injection H as -> -> ->. auto. Qed.

Lemma lab_place : forall c gh G V lab gh' G' V' rd l n, Inv c gh G V -> geff c gh G V lab gh' G' V' -> lab_at lab = Some (rd, l, n) ->
  exists b d, own gh b = Some (rd, l, n / 512) /\ own gh' b = Some (rd, l, n / 512) /\ is_rd G rd d /\ is_rd G' rd d /\
    ent gh b (n mod 512) = lab_old lab /\ ent gh' b (n mod 512) = lab_new lab.
Proof.
  intros c gh G V lab gh' G' V' rd l n I GE E.
  assert (NR : forall b o, own gh b = Some o -> forall d, is_rd G (fst (fst o)) d -> fst (fst o) <> b).
  { intros b [[r0 l0] t0] O d [R _] X. cbn [fst] in *. pose proof (own_rtt _ _ _ _ I _ _ _ _ O) as S. rewrite X in R. congruence. }
  assert (ND : forall r0 d x, is_rd G r0 d -> g_state (G x) = DELEGATED -> r0 <> x) by (intros r0 d x [R _] S X; rewrite X in R; congruence).
  assert (NO : forall b o x, own gh b = Some o -> g_state (G x) = DELEGATED -> b <> x).
  { intros b [[r0 l0] t0] x O S X. pose proof (own_rtt _ _ _ _ I _ _ _ _ O) as S2. rewrite X in S2. congruence. }
  assert (NC : forall a r0 l0 t0 i0 b0 d, own gh a = Some (r0, l0, t0) -> i0 < 512 -> ent gh a i0 = ETable b0 -> is_rd G r0 d -> b0 <> a /\ r0 <> b0).
  { intros a r0 l0 t0 i0 b0 d O Hi En R. destruct (own_child _ _ _ _ I _ _ _ _ _ _ O Hi En) as (O2 & _). split.
    - intros ->. rewrite O2 in O. assert (l0 + 1 = l0)%Z by congruence. lia.
    - exact (NR _ _ O2 _ R). }
  assert (NP : forall a r0 t0 i0 pa d, own gh a = Some (r0, 3%Z, t0) -> i0 < 512 -> asg (ent gh a i0) = Some pa -> is_rd G r0 d -> r0 <> pa).
  { intros a r0 t0 i0 pa d O Hi As R X. pose proof (t_entries _ _ _ _ _ _ _ (inv_own _ _ _ _ I _ _ _ _ _ O R) _ Hi) as [_ EO].
    assert (D : dmap gh pa = Some (r0, 512 * t0 + i0)).
    { replace pa with (pa + (512 * t0 + i0) mod pg 3 * 4096) by (change (pg 3) with 1; rewrite N.mod_1_r; lia).
      destruct (ent gh a i0); cbn [asg] in As; try discriminate; injection As as ->; apply EO; change (pg 3) with 1; apply N.div_1_r. }
    destruct (i_dmap _ _ _ _ I _ _ _ D) as (S & _). destruct R as [R _]. rewrite X in R. congruence. }
  destruct GE; cbn [lab_at] in E; try discriminate; apply some3 in E; destruct E as (<- & <- & <-); cbn [lab_old lab_new].
  all: match goal with H : own ?gh ?a = Some (?r, ?l0, ?t0), Hi : ?i0 < 512, R : is_rd ?G ?r ?dd |- _ =>
    exists a, dd; rewrite (div512_of t0 i0 Hi), (mod512_of t0 i0 Hi); pose proof (NR _ _ H dd R) as N0; cbn [fst] in N0;
    try (match goal with En : ent gh a i0 = ETable ?b0 |- _ => destruct (NC _ _ _ _ _ _ _ H Hi En R) end);
    try (match goal with As : asg (ent gh a i0) = Some ?p0 |- _ => pose proof (NP _ _ _ _ _ _ H Hi As R) end);
    try (match goal with Dl : g_state (G ?x) = DELEGATED |- _ => pose proof (ND _ _ _ R Dl); pose proof (NO _ _ _ H Dl) end)
    end.
  all: unfold set_ent, set_own, set_dmap; cbn [own ent].
  all: split; [assumption|]; split; [try (rewrite upd_other by congruence); assumption|]; split; [assumption|]; split;
    [match goal with FR : forall z, _ -> ?g z = ?G0 z |- is_rd ?g _ _ => unfold is_rd; rewrite FR by congruence | FR : forall z, _ -> _ -> ?g z = ?G0 z |- is_rd ?g _ _ => unfold is_rd; rewrite FR by congruence end; assumption|].
  all: split; [first [reflexivity | assumption]|].
  all: first [rewrite !upd_same; reflexivity | rewrite upd_other by congruence; rewrite !upd_same; reflexivity].
Qed.

(** The entry before and after a command with one such label *)
Lemma lab_entry : forall c gh G V lab gh' G' V' rd l n ipa, Inv c gh G V -> Inv c gh' G' V' -> geffs c gh G V [lab] gh' G' V' ->
  lab_at lab = Some (rd, l, n) -> n = ipa / ms l -> (-1 <= l <= 3)%Z ->
  exists d a, is_rd G rd d /\ is_rd G' rd d /\ (ipa < 2 ^ ipa_bits (rd_ctx d) ->
    entry_at G (rd_ctx d) ipa l = Some (a, l, enc (enable_lpa2 (rd_ctx d)) l (lab_old lab)) /\
    entry_at G' (rd_ctx d) ipa l = Some (a, l, enc (enable_lpa2 (rd_ctx d)) l (lab_new lab)) /\
    valid_entry (enable_lpa2 (rd_ctx d)) l (lab_old lab) /\ valid_entry (enable_lpa2 (rd_ctx d)) l (lab_new lab)).
Proof.
  intros c gh G V lab gh' G' V' rd l n ipa I I' GE LA -> Hl.
  inversion GE as [|? ? ? ? gh1 G1 V1 ? ? ? ? X1 X2]; subst. inversion X2 as [? ? ? ? ? HG HVV|]; subst.
  destruct (lab_place _ _ _ _ _ _ _ _ _ _ _ I X1 LA) as (b & d & O & O' & R & R' & E & E').
  exists d, (b + 8 * ((ipa / ms l) mod 512)). split; [exact R|]. assert (R2 : is_rd G' rd d) by (unfold is_rd; rewrite HG; exact R'). split; [exact R2|].
  intro Ha. repeat split.
  - rewrite <- E. apply (entry_own _ _ _ _ I rd d ipa l b l R Ha O); [lia|]. intro. lia.
  - rewrite <- E'. apply (entry_own _ _ _ _ I' rd d ipa l b l R2 Ha O'); [lia|]. intro. lia.
  - rewrite <- E. eapply t_entries; [eapply (inv_own _ _ _ _ I); eassumption|apply mod512_lt].
  - rewrite <- E'. eapply t_entries; [eapply (inv_own _ _ _ _ I'); eassumption|apply mod512_lt].
Qed.

(** What RTT_MAP_UNPROTECTED leaves in the table *)
Lemma mapped_entry : forall c h m o m' rp rd ipa ul w0 r, next c h m o m' rp -> done o rp (KRttMapUnprotected rd ipa ul w0) r ->
  exists d a w, realm m' rd d /\ (s2_sl (rd_ctx d) <= sgn64 ul <= 3)%Z /\ starts d ipa (sgn64 ul) /\
    entry_at (m_gr m') (rd_ctx d) ipa (sgn64 ul) = Some (a, sgn64 ul, w) /\ describe (enable_lpa2 (rd_ctx d)) (sgn64 ul) w = (1, w0, 0).
Proof.
  intros c h m o m' rp rd ipa ul w0 r H D. destruct (cmd_done_eff _ _ _ _ _ _ _ _ H D) as (gh & gh' & labs & inv & M & M' & GE & K & OK & _).
  pose proof (mv_inv _ _ _ M) as I. pose proof (mv_inv _ _ _ M') as I'.
  destruct K as [(NO & _)|(_ & _ & d & R & Hl & Hs & Ha & Al & HV & ->)]; [contradiction|]. set (l := sgn64 ul) in *.
  destruct (lab_entry _ _ _ _ _ _ _ _ rd l _ ipa I I' GE eq_refl eq_refl) as (d2 & a & R2 & R' & K); [lia|].
  assert (d2 = d) by (eapply realm_fun; [exact R|exact R2]). subst d2. destruct K as (_ & E' & _ & VE); [lia|]. cbn [lab_new] in *.
  exists d. eexists _, _. split; [exact R'|]. split; [lia|]. split; [split; [lia|rewrite ms_lsb by lia; exact Al]|]. split; [exact E'|].
  destruct (host_ns_decompose _ _ _ Hl HV) as (_ & E1 & E2). rewrite describe_enc; [|lia|exact VE].
  cbn [read_spec]. rewrite <- E1. reflexivity.
Qed.

(* ------------------------------------------------------------------ *)
(** * The address to go on from *)

Section Top.
Variables (c : cfg) (gh : ghost) (G : N -> granule) (V : N -> bool).
Hypothesis I : Inv c gh G V.

Lemma live_below : forall rd d l b t i, is_rd G rd d -> own gh b = Some (rd, l, t) -> i < 512 -> live_e (ent gh b i) = true ->
  (512 * t + i) * ms l < 2 ^ ipa_bits (rd_ctx d).
Proof.
  intros rd d l b t i R O Hi Lv. pose proof (inv_own _ _ _ _ I _ _ _ _ _ O R) as T. pose proof (t_level_ok _ _ _ _ _ _ _ T) as L1.
  destruct (t_entries _ _ _ _ _ _ _ T _ Hi) as [_ EO]. pose proof (inv_ctx _ _ _ _ I _ _ R) as X.
  assert (B : 512 * t + i < ipan (rd_ctx d) l).
  { assert (PI : parn (rd_ctx d) l <= ipan (rd_ctx d) l) by (unfold ipan; lia).
    destruct (ent gh b i); cbn [live_e] in Lv; try discriminate; try lia. }
  apply (num_ipan _ X l _ L1). rewrite N.div_mul by (pose proof (ms_pos l); lia). exact B.
Qed.

Lemma top_goes : forall rd d ipa l b top, is_rd G rd d -> ipa < 2 ^ ipa_bits (rd_ctx d) -> own gh b = Some (rd, l, ipa / ms l / 512) ->
  top_ok (ent gh b) l ((ipa / ms l) mod 512) ipa top ->
  if live_e (ent gh b ((ipa / ms l) mod 512)) then top = ipa else goes_on G (rd_ctx d) ipa l top.
Proof.
  intros rd d ipa l b top R Ha O T. unfold top_ok in T. destruct (live_e _); [exact T|]. destruct T as (j & Hj & NL & LV & ->).
  pose proof (inv_own _ _ _ _ I _ _ _ _ _ O R) as TT. pose proof (t_level_ok _ _ _ _ _ _ _ TT) as L1.
  pose proof (ctx_sl _ (inv_ctx _ _ _ _ I _ _ R)) as SL. unfold goes_on. rewrite ms_lsb by lia. cbv zeta.
  pose proof (ms_pos l) as P. pose proof (N.div_mod ipa (ms l) ltac:(lia)) as DM. pose proof (N.mod_lt ipa (ms l) ltac:(lia)) as ML.
  set (q := ipa / ms l) in *. set (t := q / 512) in *. set (i := q mod 512) in *.
  assert (Eq : q = 512 * t + i) by (unfold t, i; lia).
  assert (ET : ipa / (512 * ms l) = t) by (unfold t, q; rewrite N.div_div, (N.mul_comm (ms l)) by lia; reflexivity). rewrite ET.
  assert (Hi : i < 512) by apply mod512_lt. assert (QM : forall z, ipa <= z -> q <= z / ms l) by (intros; apply N.div_le_mono; lia). clearbody q t i. clear ET. subst q.
  assert (Etop : (512 * t + i) * ms l + (j - i) * ms l = (512 * t + j) * ms l) by (rewrite <- N.mul_add_distr_r; f_equal; lia). rewrite Etop.
  assert (EN : forall z k, k < 512 -> z / ms l = 512 * t + k -> z < 2 ^ ipa_bits (rd_ctx d) -> exists a w, entry_at G (rd_ctx d) z l = Some (a, l, w) /\
    unassigned (enable_lpa2 (rd_ctx d)) l w = negb (live_e (ent gh b k))).
  { intros z k Hk Ez Hz. eexists _, _. assert (E5 : z / ms l / 512 = t) by (rewrite Ez; apply div512_of; exact Hk).
    assert (E6 : (z / ms l) mod 512 = k) by (rewrite Ez; apply mod512_of; exact Hk).
    split; [apply (entry_own _ _ _ _ I rd d z l b l R Hz); [rewrite E5; exact O|lia|intro; lia]|]. rewrite E6.
    apply unassigned_enc; [lia|]. eapply t_entries; [exact TT|exact Hk]. }
  split; [split; [apply N.lt_le_trans with ((512 * t + i + 1) * ms l); [rewrite N.mul_add_distr_r, (N.mul_comm (512 * t + i)); lia|apply N.mul_le_mono_r; lia]|replace ((t + 1) * (512 * ms l)) with ((512 * t + 512) * ms l) by ring; apply N.mul_le_mono_r; lia]|].
  split; [apply N.mod_mul; lia|]. split.
  - intros z [Z1 Z2] Zb. assert (B1 := QM z Z1). assert (B2 : z / ms l < 512 * t + j) by (apply N.div_lt_upper_bound; lia).
    destruct (EN z (z / ms l - 512 * t)) as (a & w & E1 & E2); [lia|lia|exact Zb|]. rewrite (NL (z / ms l - 512 * t)) in E2 by lia. exists a, w. auto.
  - intro Hs. assert (Hj2 : j < 512).
    { destruct (N.lt_ge_cases j 512) as [Q|Q]; [exact Q|exfalso]. assert (j = 512) as -> by lia.
      replace ((t + 1) * (512 * ms l)) with ((512 * t + 512) * ms l) in Hs by ring. exact (N.lt_irrefl _ Hs). }
    specialize (LV Hj2). pose proof (live_below rd d l b t j R O Hj2 LV) as Lt. split; [exact Lt|].
    destruct (EN ((512 * t + j) * ms l) j) as (a & w & E1 & E2); [lia|apply N.div_mul; lia|exact Lt|]. rewrite LV in E2. exists a, w. auto.
Qed.
End Top.

Lemma same_rd : forall c gh G V a d d', Inv c gh G V -> is_rd G a d -> is_rd G a d' -> d' = d.
Proof. intros c gh G V a d d' _ [_ A] [_ B]. congruence. Qed.

Lemma walk_top : forall c gh G V gh' rd d d' ipa target wi top G', Inv c gh' G' V -> is_rd G rd d -> is_rd G' rd d' -> rd_ctx d' = rd_ctx d ->
  ipa < 2 ^ ipa_bits (rd_ctx d) -> Inv c gh G V -> walk_res gh (rd_ctx d) rd ipa target wi -> own gh' (w_llt wi) = own gh (w_llt wi) ->
  ((w_level wi < target)%Z -> is_table_e (ent gh' (w_llt wi) (w_index wi)) = false) ->
  top_ok (ent gh' (w_llt wi)) (w_level wi) (w_index wi) ipa top ->
  exists a w, entry_at G' (rd_ctx d') ipa target = Some (a, w_level wi, w) /\
    (if unassigned (enable_lpa2 (rd_ctx d')) (w_level wi) w then goes_on G' (rd_ctx d') ipa (w_level wi) top else top = ipa).
Proof.
  intros c gh G V gh' rd d d' ipa target wi top G' I' R R' EX Ha I (O & Ei & Hl & NT) EO NT' T. rewrite EX.
  assert (O' : own gh' (w_llt wi) = Some (rd, w_level wi, ipa / ms (w_level wi) / 512)) by (rewrite EO; exact O).
  rewrite Ei in *. pose proof (ctx_sl _ (inv_ctx _ _ _ _ I _ _ R)) as SL. rewrite <- EX in *.
  pose proof (t_level_ok _ _ _ _ _ _ _ (inv_own _ _ _ _ I' _ _ _ _ _ O' R')) as L3.
  eexists _, _. split; [apply (entry_own _ _ _ _ I' rd d' ipa (w_level wi) (w_llt wi) target R' Ha O'); [lia|exact NT']|].
  rewrite unassigned_enc; [|lia|eapply t_entries; [eapply (inv_own _ _ _ _ I'); eassumption|apply mod512_lt]].
  pose proof (top_goes _ _ _ _ I' rd d' ipa (w_level wi) (w_llt wi) top R' Ha O' T) as TG. destruct (live_e _); exact TG.
Qed.

Lemma top_step : forall c h m p k m' r rd ipa target top, next c h m (OCmd p k) m' (Reply r) -> top_of k r = Some (rd, ipa, target, top) -> x0 r <> 1 ->
  exists d a l w, realm m' rd d /\ entry_at (m_gr m') (rd_ctx d) ipa target = Some (a, l, w) /\
    if unassigned (enable_lpa2 (rd_ctx d)) l w then goes_on (m_gr m') (rd_ctx d) ipa l top else top = ipa.
Proof.
  intros c h m p k m' r rd ipa target top H TO NI. destruct (cmd_case _ _ _ _ _ _ _ H) as (gh & gh' & labs & inv & M & M' & GE & K & _ & _).
  pose proof (mv_inv _ _ _ M) as I. pose proof (mv_inv _ _ _ M') as I'.
  assert (FA : forall d wi, labs = [] -> is_rd (m_gr m) rd d -> ipa < 2 ^ ipa_bits (rd_ctx d) -> walk_res gh (rd_ctx d) rd ipa target wi ->
    top_ok (ent gh (w_llt wi)) (w_level wi) (w_index wi) ipa top -> exists d a l w, realm m' rd d /\ entry_at (m_gr m') (rd_ctx d) ipa target = Some (a, l, w) /\
    if unassigned (enable_lpa2 (rd_ctx d)) l w then goes_on (m_gr m') (rd_ctx d) ipa l top else top = ipa).
  { intros d wi -> R Ha W T. inversion GE as [? ? ? ? ? HG HV|]; subst. assert (R' : is_rd (m_gr m') rd d) by (unfold is_rd; rewrite HG; exact R).
    assert (I2 : Inv c gh' (m_gr m') (m_vmids m')) by exact I'. pose proof W as (_ & _ & _ & NT).
    destruct (walk_top _ _ _ _ gh' rd d d ipa target wi top (m_gr m') I2 R' R' eq_refl Ha I2 W eq_refl NT T) as (a & w & E1 & E2).
    exists d, a. eexists _, w. split; [exact R'|]. split; [exact E1|exact E2]. }
  assert (SU : forall d wi lab, labs = [lab] -> lab_at lab = Some (rd, target, ipa / ms target) -> is_rd (m_gr m) rd d -> ipa < 2 ^ ipa_bits (rd_ctx d) ->
    walk_res gh (rd_ctx d) rd ipa target wi -> w_level wi = target -> top_ok (ent gh' (w_llt wi)) target (w_index wi) ipa top ->
    exists d a l w, realm m' rd d /\ entry_at (m_gr m') (rd_ctx d) ipa target = Some (a, l, w) /\
    if unassigned (enable_lpa2 (rd_ctx d)) l w then goes_on (m_gr m') (rd_ctx d) ipa l top else top = ipa).
  { intros d wi lab -> LA R Ha W WL T. inversion GE as [|? ? ? ? gh1 G1 V1 ? ? ? ? X1 X2]; subst. inversion X2 as [? ? ? ? ? HG HVV|]; subst.
    destruct (lab_place _ _ _ _ _ _ _ _ _ _ _ I X1 LA) as (b & d2 & O & O' & R2 & R' & _). assert (d2 = d) by (eapply realm_fun; [exact R|exact R2]). subst d2.
    pose proof W as (OW & Ei & _). assert (b = w_llt wi) as -> by (eapply (own_unique _ _ _ _ I); eassumption).
    assert (R3 : is_rd (m_gr m') rd d) by (unfold is_rd; rewrite HG; exact R').
    exists d. eexists _, (w_level wi), _. split; [exact R3|]. pose proof (ctx_sl _ (inv_ctx _ _ _ _ I _ _ R)) as SL. destruct W as (_ & _ & Hl & _).
    pose proof (t_level_ok _ _ _ _ _ _ _ (inv_own _ _ _ _ I _ _ _ _ _ OW R)) as L3.
    split; [apply (entry_own _ _ _ _ I' rd d ipa (w_level wi) (w_llt wi) (w_level wi) R3 Ha O'); [lia|intro; lia]|].
    rewrite unassigned_enc; [|lia|eapply t_entries; [eapply (inv_own _ _ _ _ I'); eassumption|apply mod512_lt]]. rewrite Ei in T.
    pose proof (top_goes _ _ _ _ I' rd d ipa (w_level wi) (w_llt wi) top R3 Ha O' T) as TG. destruct (live_e _); exact TG. }
  destruct k; cbn [top_of] in TO; try discriminate; injection TO as <- <- <- <-; unfold cmd_eff in K; cbv zeta in K.
  - destruct K as [(NZ & (EL & _) & [(E1 & _)|(d & wi & R & Ha & W & _ & _ & T)])|(OK & d & e & wi & R & Ha & Al & As & EL & W & WL & T & _)].
    + contradiction.
    + eapply FA; eassumption.
    + eapply SU; try eassumption; try reflexivity; try lia. eapply N.lt_le_trans; [exact Ha|]. apply N.pow_le_mono_r; lia.
  - destruct K as [(NZ & (EL & _) & [(E1 & _)|[(d & wi & R & Ha & W & _ & _ & T)|(_ & Et & d & wi & b & R & W & WL & En & _)]])|(OK & d & e & wi & R & Hl & Ha & Al & EL & W & WL & T & _)].
    + contradiction.
    + eapply FA; eassumption.
    + pose proof W as (OW & Ei & Hl & _). pose proof (inv_own _ _ _ _ I _ _ _ _ _ OW R) as T. assert (Hi : w_index wi < 512) by (rewrite Ei; apply mod512_lt).
      pose proof (proj2 (t_entries _ _ _ _ _ _ _ T _ Hi)) as EO. rewrite En in EO. destruct EO as [EO _].
      eapply FA; [exact EL|exact R| |exact W|].
      * apply (num_ipan _ (inv_ctx _ _ _ _ I _ _ R) _ _ (t_level_ok _ _ _ _ _ _ _ T)). rewrite Ei in EO.
        rewrite <- div512 in EO. exact EO.
      * unfold top_ok. rewrite En. exact Et.
    + eapply SU; try eassumption; try reflexivity; try lia.
  - destruct K as [(NZ & (EL & _) & [(E1 & _)|(d & wi & R & Ha & W & _ & _ & T)])|(OK & d & e & pa & wi & R & Hl & Hs & Ha & Al & EL & W & WL & T & _)].
    + contradiction.
    + eapply FA; eassumption.
    + eapply SU; try eassumption; try reflexivity; try lia.
Qed.
