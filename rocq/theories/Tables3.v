(** When commands succeed (C51). *)
From Coq Require Import NArith ZArith List Bool Lia ZifyBool ZifyN.
From Verif Require Import Bits S2tte S2tteFacts State Granule Wp RecFields Measure RmiRtt RmiRealm Psci RmiRec Gic Esr Rsi RecRun
  Arch ArchFacts Mmu Machine Spec SpecStep SpecExit SpecRec SpecTables Inv InvTree MmuFacts InvStep InvStep2 InvStep3 Effects Frames CmdLib CmdData CmdRipas
  CmdRtt CmdFold CmdRtt2 CmdNs CmdRec CmdRealm CmdRsi2 CmdRun CmdRun2 CmdAll MInv MStep View StepView Own ExitFacts Step Step2 Step3 Step10 Tables Tables2.
Import ListNotations.
Local Open Scope N_scope.

Lemma refused_not_ready : forall c m k code, refused c m k code -> ~ ready c m k.
Proof.
  intros c m k code [[_ N]|[[_ N]|(rd & ipa & t & d & a & l & w & W & R & E & NW & _)]] (A & B & P); try contradiction.
  unfold place_ok in P. rewrite W in P. destruct P as (d' & R' & a' & w' & E' & K).
  assert (d' = d) by (eapply realm_fun; eassumption). subst d'. rewrite E in E'. injection E' as -> -> ->. exact (NW eq_refl K).
Qed.

Lemma code_eq : forall l, (-1 <= l <= 3)%Z -> pack_return_code RMI_ERROR_RTT l = entry_code l.
Proof. intros l Hl. assert (l = -1 \/ l = 0 \/ l = 1 \/ l = 2 \/ l = 3)%Z as [ -> |[ -> |[ -> |[ -> | -> ]]]] by lia; reflexivity. Qed.

Lemma table_code_eq : forall ul d, ctx_ok (rd_ctx d) -> (s2_sl (rd_ctx d) < sgn64 ul <= 3)%Z -> pack_return_code RMI_ERROR_RTT (sgn64 ul) = entry_code (sgn64 ul).
Proof. intros ul d X H. pose proof (ctx_sl _ X). apply code_eq. lia. Qed.

(** What the predicates of entries mean for descriptors *)
Section Desc.
Variables (ds : bool) (l : Z) (e : entry).
Hypothesis Hl : (-1 <= l <= 3)%Z.
Hypothesis VE : valid_entry ds l e.
Let w := enc ds l e.

Lemma desc_un : (exists q, page_desc ds l w 0 = PUnassigned q) <-> un_e e = true.
Proof. unfold w. rewrite page_desc_enc by assumption. split; [intros (q & E); destruct e; cbn in *; congruence|destruct e; cbn; intro; try discriminate; eauto]. Qed.
Lemma desc_asg : (exists q pa, page_desc ds l w 0 = PAssigned q pa) <-> asg_e e = true.
Proof. unfold w. rewrite page_desc_enc by assumption. split; [intros (q & pa & E); destruct e; cbn in *; congruence|destruct e; cbn; intro; try discriminate; eauto]. Qed.
Lemma desc_unns : page_desc ds l w 0 = PNsUnassigned <-> unns_e e = true.
Proof. unfold w. rewrite page_desc_enc by assumption. destruct e; cbn; split; congruence. Qed.
Lemma desc_asns : (exists pa a q, page_desc ds l w 0 = PNsAssigned pa a q) <-> asns_e e = true.
Proof. unfold w. rewrite page_desc_enc by assumption. split; [intros (q & pa & z & E); destruct e; cbn in *; congruence|destruct e; cbn; intro; try discriminate; eauto]. Qed.
Lemma desc_table : forall b, arch_decode ds l w = ATable b <-> e = ETable b.
Proof. intro b. unfold w. rewrite arch_decode_enc by assumption. destruct e; split; congruence. Qed.
End Desc.

Section Ready.
Variables (c : cfg) (h : hw) (m : mstate) (gh : ghost).
Hypothesis RM : reachable c h m.
Hypothesis M : MInv c gh m.
Let I : Inv c gh (m_gr m) (m_vmids m) := mv_inv _ _ _ M.

Lemma refuse_walk : forall k rd ipa target acc code, walks k = Some (rd, ipa, target) -> walk_fail gh (m_gr m) rd ipa target acc code ->
  (forall d e, realm m rd d -> (-1 <= target <= 3)%Z -> valid_entry (enable_lpa2 (rd_ctx d)) target e -> acc e = false ->
     ~ wanted m d k (enc (enable_lpa2 (rd_ctx d)) target e)) -> refused c m k code.
Proof.
  intros k rd ipa target acc code W (d & wi & R & Ha & WR & -> & A) K. right. right.
  pose proof WR as (O & Ei & Hl & _). pose proof (inv_own _ _ _ _ I _ _ _ _ _ O R) as T. pose proof (t_level_ok _ _ _ _ _ _ _ T) as L1.
  pose proof (ctx_sl _ (inv_ctx _ _ _ _ I _ _ R)) as SL.
  exists rd, ipa, target, d. eexists _, _, _. split; [exact W|]. split; [exact R|]. split; [eapply (entry_walk _ _ _ _ I); eassumption|].
  split; [|left; apply code_eq; lia].
  intro E. rewrite E. apply K; [exact R|lia| |exact (A E)]. rewrite <- E. eapply t_entries; [exact T|]. rewrite Ei. apply mod512_lt.
Qed.

Lemma walk_fail_of_top : forall rd ipa target acc code top, walk_fail_top gh (m_gr m) rd ipa target acc code top -> walk_fail gh (m_gr m) rd ipa target acc code.
Proof. intros rd ipa target acc code top (d & wi & A & B & C & D & E & _). exists d, wi. auto. Qed.

Lemma place_entry : forall rd d b l ipa, own gh b = Some (rd, l, ipa / ms l / 512) -> realm m rd d -> ipa < 2 ^ ipa_bits (rd_ctx d) ->
  let e := ent gh b ((ipa / ms l) mod 512) in
  (-1 <= l <= 3)%Z /\ valid_entry (enable_lpa2 (rd_ctx d)) l e /\
  exists a, entry_at (m_gr m) (rd_ctx d) ipa l = Some (a, l, enc (enable_lpa2 (rd_ctx d)) l e).
Proof.
  intros rd d b l ipa O R Ha e. pose proof (inv_own _ _ _ _ I _ _ _ _ _ O R) as T. pose proof (t_level_ok _ _ _ _ _ _ _ T) as L1.
  pose proof (ctx_sl _ (inv_ctx _ _ _ _ I _ _ R)) as SL. split; [lia|]. split; [eapply t_entries; [exact T|apply mod512_lt]|].
  eexists. apply (entry_own _ _ _ _ I rd d ipa l b l R Ha O); [lia|intro; lia].
Qed.

Lemma granule_found : forall a, find_granule c a = true <-> a mod 4096 = 0 /\ c_gran c a = true.
Proof. intro a. unfold find_granule, is_aligned_granule. rewrite andb_true_iff. change GRANULE_SIZE with 4096. rewrite <- N.eqb_eq. reflexivity. Qed.
Lemma host_granule_iff : forall a, host_granule c m a <-> find_granule c a = true /\ g_state (m_gr m a) = NS.
Proof. intro a. rewrite granule_found. unfold host_granule. tauto. Qed.
Lemma host_page_iff : forall a ok, g_state (m_gr m a) = NS -> (host_page (m_gr m) a ok <> None <-> ok = true).
Proof.
  intros a ok S. destruct (i_ns _ _ _ _ I a S) as (_ & f & E). unfold host_page. rewrite E. destruct ok; split; congruence.
Qed.
Lemma vmid_unused_iff : forall v, vmid_unused m v <-> m_vmids m v = false.
Proof.
  intro v. split.
  - intro U. destruct (m_vmids m v) eqn:E; [|reflexivity]. destruct (i_vmid _ _ _ _ I v E) as (rd & d & R & Ev). exfalso. exact (U _ _ R Ev).
  - intros E a d R Ev. pose proof (i_vmid_set _ _ _ _ I _ _ R) as S. rewrite Ev in S. congruence.
Qed.
Lemma vmid_ok_iff : forall v, v < vmid_count c <-> vmid_ok c v.
Proof. intro v. unfold vmid_ok, vmid_count. destruct (c_vmid16 c); reflexivity. Qed.

Lemma not_protected : forall d ipa, ipa < 2 ^ ipa_bits (rd_ctx d) -> ~ protected (rd_ctx d) ipa <-> 2 ^ (ipa_bits (rd_ctx d) - 1) <= ipa.
Proof. intros d ipa _. unfold protected. rewrite N.nlt_ge. reflexivity. Qed.

Lemma protected_in : forall d ipa, protected (rd_ctx d) ipa -> ipa < 2 ^ ipa_bits (rd_ctx d).
Proof. intros d ipa P. eapply N.lt_le_trans; [exact P|]. apply N.pow_le_mono_r; lia. Qed.

Lemma table_live : forall rd d b l n a, realm m rd d -> own gh b = Some (rd, l, n / 512) -> ent gh b (n mod 512) = ETable a ->
  live_count (m_gr m) (enable_lpa2 (rd_ctx d)) (l + 1) a = g_ref (m_gr m a).
Proof.
  intros rd d b l n a R O E. destruct (own_child _ _ _ _ I _ _ _ _ _ _ O (mod512_lt n) E) as (O2 & _).
  symmetry. eapply (live_count_ref _ _ _ _ I); eassumption.
Qed.

Lemma destroy_object : forall rd d, realm m rd d ->
  (object_ok m (KRealmDestroy rd) <-> g_ref (m_gr m rd) = 0 /\ forall k, k < num_root_rtts (rd_ctx d) -> g_ref (m_gr m (g_rtt (rd_ctx d) + k * 4096)) = 0).
Proof.
  intros rd d R. cbn [object_ok]. destruct (rd_counts _ _ _ RM rd d R) as (L & ND & IL & EL).
  assert (A : (forall a r, rec_is m a r -> r_g_rd r <> rd) <-> g_ref (m_gr m rd) = 0).
  { rewrite EL. split.
    - intro N. destruct L as [|b L]; [reflexivity|]. destruct (proj1 (IL b) (or_introl eq_refl)) as (r & R1 & R2). contradiction (N _ _ R1 R2).
    - intros E a r R1 R2. assert (In a L) by (apply IL; eauto). destruct L; [contradiction|discriminate]. }
  assert (B : forall k, k < num_root_rtts (rd_ctx d) -> live_count (m_gr m) (enable_lpa2 (rd_ctx d)) (s2_sl (rd_ctx d)) (g_rtt (rd_ctx d) + k * 4096) =
    g_ref (m_gr m (g_rtt (rd_ctx d) + k * 4096))).
  { intros k Hk. symmetry. eapply (live_count_ref _ _ _ _ I); [exact R|]. eapply i_root; eassumption. }
  split.
  - intros (d' & R' & N & K). assert (d' = d) by (eapply realm_fun; eassumption). subst d'. split; [apply A, N|]. intros k Hk. rewrite <- B by exact Hk. apply K, Hk.
  - intros (E & K). exists d. split; [exact R|]. split; [apply A, E|]. intros k Hk. rewrite B by exact Hk. apply K, Hk.
Qed.
End Ready.

Lemma is_bad_input : forall c m k, ~ input_ok c m k -> refused c m k 1.
Proof. intros. left. auto. Qed.

Lemma fail_refused : forall c h m gh k r gh' labs inv, reachable c h m -> MInv c gh m -> listed k = true ->
  cmd_eff c gh (m_gr m) (m_vmids m) k r gh' labs inv -> x0 r <> 0 -> refused c m k (x0 r).
Proof.
  intros c h m gh k r gh' labs inv RM M Lk K NZ. pose proof (mv_inv _ _ _ M) as I.
  destruct k; cbn [listed] in Lk; try discriminate; unfold cmd_eff in K; cbv zeta in K;
    (destruct K as [(_ & _ & F)|(OK & _)]; [|contradiction]).
  - (* GRANULE_DELEGATE *) destruct F as (-> & N). apply is_bad_input. cbn [input_ok]. rewrite host_granule_iff. tauto.
  - (* GRANULE_UNDELEGATE *) destruct F as (-> & N). apply is_bad_input. exact N.
  - (* DATA_CREATE *) destruct F as [(-> & N)|[(-> & d & R & N)|W]].
    + apply is_bad_input. intros (d & R & Sd & Rc & (P & Al) & Fl & HG & ->). apply N. apply host_granule_iff in HG. destruct HG as (F1 & F2).
      split; [exists d; auto 8|]. split; [exact Fl|]. split; [exact F1|]. split; [exact F2|]. apply (host_page_iff _ _ _ M); [exact F2|reflexivity].
    + right. left. split; [reflexivity|]. intros (d' & R' & S). assert (d' = d) by (eapply realm_fun; eassumption). congruence.
    + eapply refuse_walk; [exact M|reflexivity|exact W|]. intros d e R Hl VE A B. cbn [wanted] in B. apply desc_un in B; [congruence|exact Hl|exact VE].
  - (* DATA_CREATE_UNKNOWN *) destruct F as [(-> & N)|W].
    + apply is_bad_input. intros (d & R & Sd & Rc & (P & Al)). apply N. exists d; auto 8.
    + eapply refuse_walk; [exact M|reflexivity|exact W|]. intros d e R Hl VE A B. cbn [wanted] in B. apply desc_un in B; [congruence|exact Hl|exact VE].
  - (* DATA_DESTROY *) destruct F as [(-> & N)|W].
    + apply is_bad_input. intros (d & R & (P & Al)). apply N. exists d; auto 8.
    + apply walk_fail_of_top in W. eapply refuse_walk; [exact M|reflexivity|exact W|]. intros d e R Hl VE A B. cbn [wanted] in B. apply desc_asg in B; [congruence|exact Hl|exact VE].
  - (* REALM_ACTIVATE *) destruct F as [(-> & N)|(-> & d & R & N)]; [apply is_bad_input; exact N|].
    right. left. split; [reflexivity|]. intros (d' & R' & S). assert (d' = d) by (eapply realm_fun; eassumption). congruence.
  - (* REALM_CREATE *) destruct F as (-> & N). apply is_bad_input. intros (p & -> & HG & PO & VO & VU & SD & RT). apply N. exists p.
    apply host_granule_iff in HG. destruct HG as (F1 & F2). apply vmid_ok_iff in VO. apply (vmid_unused_iff _ _ _ M) in VU.
    split; [reflexivity|]. repeat (split; [first [assumption | apply params_iff; assumption]|]). exact RT.
  - (* REALM_DESTROY *) destruct F as [(-> & N)|(-> & d & R & N)]; [apply is_bad_input; exact N|].
    right. left. split; [reflexivity|]. intro OB. apply (destroy_object _ _ _ _ RM M _ _ R) in OB. destruct OB as (A & B). destruct N as [N|(j & Hj & N)]; [contradiction|exact (N (B j Hj))].
  - (* REC_DESTROY *) destruct F as [(-> & N)|(-> & S & N)]; [apply is_bad_input; intros (rc & R & _); contradiction|].
    right. left. split; [reflexivity|]. cbn [object_ok]. destruct (i_rec _ _ _ _ I _ S) as (_ & rc & d & E & _).
    intro NE. destruct (rec_counts _ _ _ RM _ rc (conj S E)) as [(_ & q & X)|(Z0 & _)]; [exact (NE q X)|contradiction].
  - (* RTT_CREATE *) destruct F as [(-> & N)|W].
    + apply is_bad_input. intros (d & R & Hl & (Ha & Al) & SD & RC). apply N. exists d. pose proof (ctx_sl _ (inv_ctx _ _ _ _ I _ _ R)). rewrite ms_lsb in Al by lia. auto 8.
    + eapply refuse_walk; [exact M|reflexivity|exact W|]. intros d e R Hl VE A B. cbn [wanted] in B. destruct e; try discriminate. apply (B pa). apply desc_table; [exact VE|reflexivity].
  - (* RTT_DESTROY *) destruct F as [(-> & N)|[W|(-> & _ & d & wi & b & R & W & WL & En & NR)]].
    + apply is_bad_input. intros (d & R & Hl & (Ha & Al)). apply N. exists d. pose proof (ctx_sl _ (inv_ctx _ _ _ _ I _ _ R)). rewrite ms_lsb in Al by lia. auto 8.
    + apply walk_fail_of_top in W. eapply refuse_walk; [exact M|reflexivity|exact W|]. intros d e R Hl VE A (b & B & _). apply desc_table in B; [|exact VE]. subst e. discriminate.
    + pose proof W as (O & Ei & Hl & _). pose proof (inv_own _ _ _ _ I _ _ _ _ _ O R) as T. pose proof (t_level_ok _ _ _ _ _ _ _ T) as L1.
      pose proof (ctx_sl _ (inv_ctx _ _ _ _ I _ _ R)) as SL. assert (Hi : w_index wi < 512) by (rewrite Ei; apply mod512_lt).
      pose proof (t_entries _ _ _ _ _ _ _ T _ Hi) as EO. rewrite En in EO. destruct EO as [VE [EO O2]].
      destruct (own_child _ _ _ _ I _ _ _ _ _ _ O Hi En) as (_ & L2).
      assert (Ha : map < 2 ^ ipa_bits (rd_ctx d)).
      { apply (num_ipan _ (inv_ctx _ _ _ _ I _ _ R) _ _ L1). rewrite Ei, <- div512 in EO. exact EO. }
      right. right. exists rd, map, (sgn64 ulevel - 1)%Z, d. eexists _, _, _. split; [reflexivity|]. split; [exact R|].
      split; [eapply (entry_walk _ _ _ _ I); eassumption|]. rewrite WL. split.
      * intros _ (b' & B & LC). rewrite WL in VE. rewrite En in B. apply desc_table in B; [|exact VE]. injection B as <-.
        rewrite Ei in En. pose proof (table_live _ _ _ M rd d _ _ (map / ms (w_level wi)) b R O En) as TL. rewrite WL in TL.
        replace (sgn64 ulevel - 1 + 1)%Z with (sgn64 ulevel) in TL by lia. congruence.
      * right. exists ulevel. split; [reflexivity|]. split; [reflexivity|]. apply code_eq. lia.
  - (* RTT_MAP_UNPROTECTED *) destruct F as [(-> & N)|W].
    + apply is_bad_input. intros (d & R & (L1 & L2 & (Ha & Al) & NP) & (HF & HM)). apply N. exists d. rewrite ms_lsb in Al by lia. apply not_protected in NP; [|exact Ha].
      split; [exact R|]. split; [exact L1|]. split; [lia|]. split; [exact Al|]. apply host_valid; auto.
    + eapply refuse_walk; [exact M|reflexivity|exact W|]. intros d e R Hl VE A B. cbn [wanted] in B. apply desc_unns in B; [congruence|exact Hl|exact VE].
  - (* RTT_READ_ENTRY *) destruct F as (-> & N). apply is_bad_input. intros (d & R & Hl & (Ha & Al)). apply N. exists d. pose proof (ctx_sl _ (inv_ctx _ _ _ _ I _ _ R)). rewrite ms_lsb in Al by lia. auto 8.
  - (* RTT_UNMAP_UNPROTECTED *) destruct F as [(-> & N)|W].
    + apply is_bad_input. intros (d & R & (L1 & L2 & (Ha & Al) & NP)). apply N. exists d. rewrite ms_lsb in Al by lia. apply not_protected in NP; [|exact Ha]. auto 8.
    + apply walk_fail_of_top in W. eapply refuse_walk; [exact M|reflexivity|exact W|]. intros d e R Hl VE A B. cbn [wanted] in B. apply desc_asns in B; [congruence|exact Hl|exact VE].
  - (* REC_AUX_COUNT *) destruct F as (-> & N). apply is_bad_input. exact N.
Qed.

Lemma assign_facts : forall c gh G V rd n e e' pa f gh' G' V', geff c gh G V (LAssign rd n e e' pa f) gh' G' V' ->
  g_state (G pa) = DELEGATED /\ asg e' = Some pa /\ exists d, is_rd G rd d /\ valid_entry (enable_lpa2 (rd_ctx d)) 3 e'.
Proof. intros c gh G V rd n e e' pa f gh' G' V' H. inversion H; subst. eauto 8. Qed.
Lemma attach_facts : forall c gh G V rd l n e b gh' G' V', geff c gh G V (LAttach rd l n e b) gh' G' V' ->
  g_state (G b) = DELEGATED /\ is_table_e e = false /\ exists d, is_rd G rd d /\ pa_ok (enable_lpa2 (rd_ctx d)) 3 b.
Proof. intros c gh G V rd l n e b gh' G' V' H. inversion H; subst. eauto 8. Qed.
Lemma destroy_facts : forall c gh G V rd l n e b gh' G' V', geff c gh G V (LDestroy rd l n e b) gh' G' V' -> g_ref (G b) = 0.
Proof. intros c gh G V rd l n e b gh' G' V' H. inversion H; subst. assumption. Qed.
Lemma rd_facts : forall c gh G V rd d d' gh' G' V', geff c gh G V (LRd rd d d') gh' G' V' ->
  gh' = gh /\ G' rd = mkG RD (g_ref (G rd)) (CRd d') /\ forall z, z <> rd -> G' z = G z.
Proof. intros c gh G V rd d d' gh' G' V' H. inversion H; subst. auto. Qed.

Lemma pa_reach : forall d l pa, pa_ok (enable_lpa2 (rd_ctx d)) l pa -> in_reach d pa.
Proof. intros d l pa [_ B]. unfold in_reach. unfold oa_bits in B. destruct (enable_lpa2 (rd_ctx d)); [left; reflexivity|right; exact B]. Qed.

Lemma one_lab : forall c gh G V lab gh' G' V', geffs c gh G V [lab] gh' G' V' -> exists G1 V1, geff c gh G V lab gh' G1 V1.
Proof. intros c gh G V lab gh' G' V' H. inversion H as [|? ? ? ? gh1 G1 V1 ? ? ? ? X1 X2]; subst. inversion X2; subst. eauto. Qed.

Lemma done_ready : forall c h m gh k r gh' labs inv G' V', reachable c h m -> MInv c gh m -> listed k = true ->
  geffs c gh (m_gr m) (m_vmids m) labs gh' G' V' -> cmd_eff c gh (m_gr m) (m_vmids m) k r gh' labs inv -> x0 r = 0 -> ready c m k.
Proof.
  intros c h m gh k r gh' labs inv G' V' RM M Lk GE K Z0. pose proof (mv_inv _ _ _ M) as I.
  (* the entry before the command *)
  assert (PL : forall lab G1 V1 rd l ipa d, geff c gh (m_gr m) (m_vmids m) lab gh' G1 V1 -> lab_at lab = Some (rd, l, ipa / ms l) -> realm m rd d ->
    ipa < 2 ^ ipa_bits (rd_ctx d) -> (-1 <= l <= 3)%Z /\ valid_entry (enable_lpa2 (rd_ctx d)) l (lab_old lab) /\
    exists a, entry_at (m_gr m) (rd_ctx d) ipa l = Some (a, l, enc (enable_lpa2 (rd_ctx d)) l (lab_old lab))).
  { intros lab G1 V1 rd l ipa d X LA R Ha. destruct (lab_place _ _ _ _ _ _ _ _ _ _ _ I X LA) as (b & d2 & O & _ & R2 & _ & E & _).
    rewrite <- E. exact (place_entry _ _ _ M rd d b l ipa O R Ha). }
  assert (PO : forall k rd l ipa d e a, walks k = Some (rd, ipa, l) -> realm m rd d -> entry_at (m_gr m) (rd_ctx d) ipa l = Some (a, l, enc (enable_lpa2 (rd_ctx d)) l e) ->
    wanted m d k (enc (enable_lpa2 (rd_ctx d)) l e) -> place_ok m k).
  { intros k0 rd l ipa d e a W R E WA. unfold place_ok. rewrite W. exists d. split; [exact R|]. eexists _, _. split; [exact E|exact WA]. }
  destruct k; cbn [listed] in Lk; try discriminate; unfold cmd_eff in K; cbv zeta in K;
    (destruct K as [(NZ & _)|(_ & K)]; [contradiction|]).
  - (* GRANULE_DELEGATE *) destruct K as (_ & _ & S & -> & F). split; [|split; exact Logic.I]. split; [reflexivity|]. apply host_granule_iff. auto.
  - (* GRANULE_UNDELEGATE *) destruct K as (_ & _ & S). split; [exact S|split; exact Logic.I].
  - (* DATA_CREATE *) destruct K as (_ & d & e & f & R & S & P & Al & U & HP & Fl & SN & FG & ->).
    inversion GE as [|? ? ? ? gh1 G1 V1 ? ? ? ? X1 X2]; subst. destruct (one_lab _ _ _ _ _ _ _ _ X2) as (G2 & V2 & X3).
    destruct (rd_facts _ _ _ _ _ _ _ _ _ _ X1) as (-> & E1 & F1). destruct (assign_facts _ _ _ _ _ _ _ _ _ _ _ _ _ X3) as (SD & As & d1 & R1 & V3).
    assert (d1 = set_meas d RIM_MEASUREMENT_SLOT (measurement_data_granule_measure c (rd_meas d RIM_MEASUREMENT_SLOT) (rd_algorithm d) f map flags)).
    { destruct R1 as [_ R1]. rewrite E1 in R1. cbn [g_mem] in R1. congruence. } subst d1.
    assert (I1 : Inv c gh G1 V1) by (eapply geff_inv; [exact I|exact X1]).
    destruct (lab_place _ _ _ _ _ _ _ _ _ _ _ I1 X3 eq_refl) as (b & d2 & O & _ & _ & _ & E & _).
    change 4096 with (ms 3) in O, E. destruct (place_entry _ _ _ M rd d b 3 map O R (protected_in d map P)) as (Hl & VE & a & EA). rewrite E in VE, EA. cbn [lab_old] in VE, EA.
    split; [|split; [exists d; auto|]].
    + exists d. split; [exact R|]. rewrite F1 in SD. 2: { intros ->. rewrite E1 in SD. discriminate. }
      split; [exact SD|]. split; [destruct V3 as (_ & V3); exact (pa_reach d 3 data V3)|]. split; [split; assumption|]. split; [exact Fl|].
      split; [apply host_granule_iff; auto|]. apply (host_page_iff _ _ _ M src); [exact SN|]. congruence.
    + eapply PO; [reflexivity|exact R|exact EA|]. cbn [wanted]. apply desc_un; assumption.
  - (* DATA_CREATE_UNKNOWN *) destruct K as (_ & d & e & R & P & Al & U & ->). destruct (one_lab _ _ _ _ _ _ _ _ GE) as (G1 & V1 & X).
    destruct (assign_facts _ _ _ _ _ _ _ _ _ _ _ _ _ X) as (SD & As & d1 & R1 & V3). assert (d1 = d) by (eapply realm_fun; eassumption). subst d1.
    destruct (PL _ _ _ rd 3%Z map d X eq_refl R (protected_in d map P)) as (Hl & VE & a & EA). cbn [lab_old] in VE, EA.
    split; [|split; [exact Logic.I|]].
    + exists d. split; [exact R|]. split; [exact SD|]. split; [|split; assumption].
      destruct e; try discriminate U; cbn in V3; destruct V3 as (_ & V3); exact (pa_reach d 3 data V3).
    + eapply PO; [reflexivity|exact R|exact EA|]. cbn [wanted]. apply desc_un; assumption.
  - (* DATA_DESTROY *) destruct K as (d & e & wi & R & P & Al & As & -> & _). destruct (one_lab _ _ _ _ _ _ _ _ GE) as (G1 & V1 & X).
    destruct (PL _ _ _ rd 3%Z map d X eq_refl R (protected_in d map P)) as (Hl & VE & a & EA). cbn [lab_old] in VE, EA.
    split; [exists d; split; [exact R|split; assumption]|split; [exact Logic.I|]].
    eapply PO; [reflexivity|exact R|exact EA|]. cbn [wanted]. apply desc_asg; try assumption. unfold asg_e. rewrite As. reflexivity.
  - (* REALM_ACTIVATE *) destruct K as (_ & d & R & S & _). split; [exists d; exact R|]. split; [exists d; auto|exact Logic.I].
  - (* REALM_CREATE *) destruct K as (_ & p & -> & SN & PV & VC & VF & FG & SD & RT & _). split; [|split; exact Logic.I]. exists p. split; [reflexivity|].
    split; [apply host_granule_iff; auto|]. split; [apply params_iff, PV|]. split; [apply vmid_ok_iff, VC|]. split; [apply (vmid_unused_iff _ _ _ M), VF|]. auto.
  - (* REALM_DESTROY *) destruct K as (_ & d & R & RZ & RR & _). split; [exists d; exact R|]. split; [|exact Logic.I].
    apply (destroy_object _ _ _ _ RM M _ _ R). auto.
  - (* REC_DESTROY *) destruct K as (_ & rc & R & RZ & _). split; [exists rc; exact R|]. split; [|exact Logic.I]. cbn [object_ok].
    destruct (rec_counts _ _ _ RM _ rc R) as [(E & _)|(_ & N)]; [congruence|exact N].
  - (* RTT_CREATE *) destruct K as (d & e & R & Hl & Ha & Al & -> & _). destruct (one_lab _ _ _ _ _ _ _ _ GE) as (G1 & V1 & X).
    destruct (attach_facts _ _ _ _ _ _ _ _ _ _ _ _ X) as (SD & NT & d1 & R1 & PA). assert (d1 = d) by (eapply realm_fun; eassumption). subst d1.
    destruct (PL _ _ _ rd (sgn64 ulevel - 1)%Z map d X eq_refl R Ha) as (Hl2 & VE & a & EA). cbn [lab_old] in VE, EA.
    split; [|split; [exact Logic.I|]].
    + exists d. split; [exact R|]. split; [exact Hl|]. split; [split; [exact Ha|rewrite ms_lsb by lia; exact Al]|]. split; [exact SD|exact (pa_reach d 3 rtt PA)].
    + eapply PO; [reflexivity|exact R|exact EA|]. cbn [wanted]. intros b B. apply desc_table in B; [|exact VE]. subst e. discriminate.
  - (* RTT_DESTROY *) destruct K as (d & e & wi & R & Hl & Ha & Al & -> & _). destruct (one_lab _ _ _ _ _ _ _ _ GE) as (G1 & V1 & X).
    pose proof (destroy_facts _ _ _ _ _ _ _ _ _ _ _ _ X) as RZ.
    destruct (PL _ _ _ rd (sgn64 ulevel - 1)%Z map d X eq_refl R Ha) as (Hl2 & VE & a & EA). cbn [lab_old] in VE, EA.
    split; [|split; [exact Logic.I|]].
    + exists d. split; [exact R|]. split; [exact Hl|]. split; [exact Ha|rewrite ms_lsb by lia; exact Al].
    + eapply PO; [reflexivity|exact R|exact EA|]. exists (x1 r). split; [apply desc_table; [exact VE|reflexivity]|].
      destruct (lab_place _ _ _ _ _ _ _ _ _ _ _ I X eq_refl) as (b & d2 & O & _ & _ & _ & E & _). cbn [lab_old] in E.
      pose proof (table_live _ _ _ M rd d b _ _ _ R O E) as TL. replace (sgn64 ulevel - 1 + 1)%Z with (sgn64 ulevel) in TL by lia. rewrite TL. exact RZ.
  - (* RTT_MAP_UNPROTECTED *) destruct K as (_ & d & R & Hl & Hs & Ha & Al & HV & ->). destruct (one_lab _ _ _ _ _ _ _ _ GE) as (G1 & V1 & X).
    destruct (PL _ _ _ rd (sgn64 ulevel)%Z map d X eq_refl R (proj2 Ha)) as (Hl2 & VE & a & EA). cbn [lab_old] in VE, EA.
    split; [|split; [exact Logic.I|]].
    + exists d. split; [exact R|]. split; [|apply host_valid; assumption]. split; [exact Hl|]. split; [exact Hs|].
      split; [split; [apply Ha|rewrite ms_lsb by lia; exact Al]|apply not_protected; apply Ha].
    + eapply PO; [reflexivity|exact R|exact EA|]. apply desc_unns; auto.
  - (* RTT_READ_ENTRY *) destruct K as (_ & _ & _ & d & wi & R & Hl & Ha & Al & _). pose proof (ctx_sl _ (inv_ctx _ _ _ _ I _ _ R)) as SL.
    split; [|split; exact Logic.I]. exists d. split; [exact R|]. split; [exact Hl|]. split; [exact Ha|rewrite ms_lsb by lia; exact Al].
  - (* RTT_UNMAP_UNPROTECTED *) destruct K as (d & at_ & pa & wi & R & Hl & Hs & Ha & Al & -> & _). destruct (one_lab _ _ _ _ _ _ _ _ GE) as (G1 & V1 & X).
    destruct (PL _ _ _ rd (sgn64 ulevel)%Z map d X eq_refl R (proj2 Ha)) as (Hl2 & VE & a & EA). cbn [lab_old] in VE, EA.
    split; [|split; [exact Logic.I|]].
    + exists d. split; [exact R|]. split; [exact Hl|]. split; [exact Hs|].
      split; [split; [apply Ha|rewrite ms_lsb by lia; exact Al]|apply not_protected; apply Ha].
    + eapply PO; [reflexivity|exact R|exact EA|]. apply desc_asns; auto.
  - (* REC_AUX_COUNT *) destruct K as (_ & _ & d & R & _). split; [exists d; exact R|split; exact Logic.I].
Qed.

Lemma ready_step : forall c h m p k m' r, next c h m (OCmd p k) m' (Reply r) -> listed k = true ->
  (x0 r = 0 <-> ready c m k) /\ (x0 r <> 0 -> refused c m k (x0 r)).
Proof.
  intros c h m p k m' r H Lk. destruct (cmd_case _ _ _ _ _ _ _ H) as (gh & gh' & labs & inv & M & M' & GE & K & _ & _).
  assert (RM : reachable c h m) by apply H.
  assert (F : x0 r <> 0 -> refused c m k (x0 r)) by (intro; eapply fail_refused; eassumption). split; [|exact F]. split.
  - intro Z0. eapply done_ready; eassumption.
  - intro RD. destruct (N.eq_dec (x0 r) 0) as [E|E]; [exact E|]. exfalso. exact (refused_not_ready _ _ _ _ (F E) RD).
Qed.

(* ------------------------------------------------------------------ *)
(** * New realms and VMIDs *)

Lemma geometry_cover : forall size sl tables ds, geometry size sl tables ds ->
  (tables - 1) * (512 * 2 ^ arch_lsb sl) < 2 ^ size <= tables * (512 * 2 ^ arch_lsb sl).
Proof.
  intros size sl tables ds (_ & _ & L & [(S & ->)|(_ & S & ->)]); change 512 with (2 ^ 9); rewrite <- N.pow_add_r.
  - rewrite N.mul_1_l. split; [apply (N.lt_le_trans _ 1); [reflexivity|]|apply N.pow_le_mono_r; lia]. change 1 with (2 ^ 0). apply N.pow_le_mono_r; lia.
  - rewrite N.mul_sub_distr_r, <- N.pow_add_r, N.mul_1_l. replace (size - arch_lsb sl - 9 + (9 + arch_lsb sl)) with size by lia.
    assert (0 < 2 ^ (9 + arch_lsb sl)) by (apply N.neq_0_lt_0, N.pow_nonzero; lia). assert (0 < 2 ^ size) by (apply N.neq_0_lt_0, N.pow_nonzero; lia). lia.
Qed.

Lemma new_realm : forall c h m o m' rp p rd pa r, next c h m o m' rp -> done o rp (KRealmCreate (Some p) rd pa) r -> exists d, realm m' rd d /\
  rd_ctx d = mkCtx (p_s2sz p) (p_rtt_level_start p) (p_rtt_num_start p) (p_rtt_base p) (p_vmid p) (N.testbit (p_flags p) 0) /\
  params_ok c p /\
  (forall ipa, page_at (m_gr m') (rd_ctx d) ipa =
     if ipa <? 2 ^ (p_s2sz p - 1) then PUnassigned EMPTY else if ipa <? 2 ^ p_s2sz p then PNsUnassigned else POut) /\
  (forall ipa, ipa < 2 ^ p_s2sz p -> p_rtt_base p <= first_desc (rd_ctx d) ipa < p_rtt_base p + p_rtt_num_start p * 4096) /\
  (p_rtt_num_start p - 1) * (512 * 2 ^ arch_lsb (p_rtt_level_start p)) < 2 ^ p_s2sz p <= p_rtt_num_start p * (512 * 2 ^ arch_lsb (p_rtt_level_start p)).
Proof.
  intros c h m o m' rp p rd pa r H D. destruct (cmd_done_eff _ _ _ _ _ _ _ _ H D) as (gh & gh' & labs & inv & M & M' & GE & K & OK & _).
  pose proof (mv_inv _ _ _ M) as I. pose proof (mv_inv _ _ _ M') as I'.
  destruct K as [(NO & _)|(_ & _ & p' & E & SN & PV & VC & VF & FG & SD & RT & ->)]; [contradiction|]. injection E as <-.
  set (d := created_rd c p) in *.
  inversion GE as [|? ? ? ? gh1 G1 V1 ? ? ? ? X1 X2]; subst. inversion X2 as [? ? ? ? ? HG HVV|]; subst.
  assert (EX : rd_ctx d = mkCtx (p_s2sz p) (p_rtt_level_start p) (p_rtt_num_start p) (p_rtt_base p) (p_vmid p) (N.testbit (p_flags p) 0)).
  { unfold d. cbn. f_equal. apply extract_bit. }
  assert (R : realm m' rd d /\ forall k j, k < num_root_rtts (rd_ctx d) -> ent gh' (g_rtt (rd_ctx d) + k * 4096) j = root_entry (rd_ctx d) (512 * k + j)).
  { inversion X1; subst. split.
    - split; rewrite HG; [replace (G1 rd) with (mkG RD 0 (CRd d)) by (symmetry; assumption)|replace (G1 rd) with (mkG RD 0 (CRd d)) by (symmetry; assumption)]; reflexivity.
    - intros k j Hk. unfold create_ghost. cbn [ent]. rewrite (proj2 (root_idx_some _ _ _ k)) by auto. reflexivity. }
  destruct R as (R & EN). pose proof (proj1 (params_iff c p) PV) as PO. pose proof (inv_ctx _ _ _ _ I' _ _ R) as CO. pose proof (ctx_sl _ CO) as SL.
  exists d. split; [exact R|]. split; [exact EX|]. split; [exact PO|]. pose proof (geometry_cover _ _ _ _ (proj1 PO)) as GC.
  assert (B : ipa_bits (rd_ctx d) = p_s2sz p) by (rewrite EX; reflexivity).
  split; [|split; [|exact GC]].
  - intro ipa. rewrite <- B. destruct (N.ltb_spec ipa (2 ^ ipa_bits (rd_ctx d))) as [Ha|Ha].
    + destruct (root_own _ _ _ _ I' _ _ _ R Ha) as (Kn & O). cbv zeta in Kn, O. set (l := s2_sl (rd_ctx d)) in *. set (t := ipa / ms l / 512) in *.
      assert (LF : Leaf gh' rd (ipa / 4096) l (g_rtt (rd_ctx d) + t * 4096) (root_entry (rd_ctx d) (ipa / ms l))).
      { unfold Leaf. rewrite <- num_page by lia. split; [first [exact O|rewrite N.mul_comm in O; exact O|idtac]|]. split.
        - rewrite EN by exact Kn. f_equal. unfold t. symmetry. apply div512.
        - unfold root_entry. destruct (_ <? _); [reflexivity|]. destruct (_ <? _); reflexivity. }
      rewrite (proj1 (view_leaf _ _ _ _ I' rd d ipa l _ _ R Ha LF)). unfold root_entry.
      pose proof (num_parn _ CO l ipa ltac:(lia)) as NP. pose proof (num_ipan _ CO l ipa ltac:(lia)) as NI. fold l.
      destruct (N.ltb_spec ipa (2 ^ (ipa_bits (rd_ctx d) - 1))) as [Hp|Hp].
      * rewrite (proj2 (N.ltb_lt _ _) (proj2 NP Hp)). reflexivity.
      * destruct (N.ltb_spec (ipa / ms l) (parn (rd_ctx d) l)) as [Q|Q]; [exfalso; apply NP in Q; lia|]. rewrite (proj2 (N.ltb_lt _ _) (proj2 NI Ha)). reflexivity.
    + assert (2 ^ (ipa_bits (rd_ctx d) - 1) <= 2 ^ ipa_bits (rd_ctx d)) by (apply N.pow_le_mono_r; lia).
      destruct (N.ltb_spec ipa (2 ^ (ipa_bits (rd_ctx d) - 1))) as [Hp|Hp]; [lia|]. unfold page_at. rewrite (proj2 (N.ltb_ge _ _) Ha). reflexivity.
  - intros ipa Ha. unfold first_desc. rewrite EX. cbn [g_rtt s2_sl]. set (z := 2 ^ arch_lsb (p_rtt_level_start p)) in *.
    assert (ipa / z < p_rtt_num_start p * 512).
    { apply N.div_lt_upper_bound; [apply N.pow_nonzero; lia|]. eapply N.lt_le_trans; [exact Ha|]. destruct GC as [_ GC]. eapply N.le_trans; [exact GC|]. apply N.eq_le_incl. ring. }
    set (q := ipa / z) in *. clearbody q. clear - H0. nia.
Qed.

Lemma vmid_used : forall c h m, reachable c h m -> forall v, m_vmids m v = true <-> exists rd d, realm m rd d /\ vmid (rd_ctx d) = v.
Proof.
  intros c h m H v. destruct (reach_minv _ _ _ H) as (gh & M). pose proof (mv_inv _ _ _ M) as I. split; [apply (i_vmid _ _ _ _ I)|].
  intros (rd & d & R & <-). exact (i_vmid_set _ _ _ _ I _ _ R).
Qed.

Lemma vmid_step : forall c h m o m' rp, next c h m o m' rp -> forall v, m_vmids m' v <> m_vmids m v ->
  (exists p rd pa r, done o rp (KRealmCreate (Some p) rd pa) r /\ p_vmid p = v /\ m_vmids m v = false /\ m_vmids m' v = true) \/
  (exists rd r d, done o rp (KRealmDestroy rd) r /\ realm m rd d /\ vmid (rd_ctx d) = v /\ m_vmids m v = true /\ m_vmids m' v = false).
Proof.
  intros c h m o m' rp H v NE. destruct (next_good _ _ _ _ _ _ H) as (gh & gh' & labs & M & M' & _). pose proof (mv_inv _ _ _ M) as I. pose proof (mv_inv _ _ _ M') as I'.
  destruct (m_vmids m' v) eqn:E'; destruct (m_vmids m v) eqn:E; try contradiction.
  - left. destruct (i_vmid _ _ _ _ I' v E') as (rd & d & R & Ev).
    assert (N : g_state (m_gr m rd) <> RD).
    { intro S. destruct (i_rd _ _ _ _ I rd S) as (d0 & Ed & _). assert (R0 : realm m rd d0) by (split; assumption).
      pose proof (ctx_step _ _ _ _ _ _ H _ _ _ R0 R) as EX. pose proof (i_vmid_set _ _ _ _ I _ _ R0) as S0. rewrite <- EX, Ev in S0. congruence. }
    destruct (realm_appears _ _ _ _ _ _ H _ _ R N) as (p & pa & r & D & _ & _ & EX). exists p, rd, pa, r. rewrite EX in Ev. auto.
  - right. destruct (i_vmid _ _ _ _ I v E) as (rd & d & R & Ev).
    assert (N : g_state (m_gr m' rd) <> RD).
    { intro S. destruct (i_rd _ _ _ _ I' rd S) as (d0 & Ed & _). assert (R0 : realm m' rd d0) by (split; assumption).
      pose proof (ctx_step _ _ _ _ _ _ H _ _ _ R R0) as EX. pose proof (i_vmid_set _ _ _ _ I' _ _ R0) as S0. rewrite EX, Ev in S0. congruence. }
    assert (MV : moves m o rp rd (g_state (m_gr m rd)) (g_state (m_gr m' rd))) by (eapply moved; [exact H|destruct R as [-> _]; exact N]).
    destruct R as [S Ed]. rewrite S in MV. inversion MV; subst. exists rd, r, d. split; [assumption|]. split; [split; assumption|auto].
Qed.

Lemma map_read : forall c h m o m1 rp rd ipa ul w r p m2 r2, next c h m o m1 rp -> done o rp (KRttMapUnprotected rd ipa ul w) r ->
  next c h m1 (OCmd p (KRttReadEntry rd ipa ul)) m2 (Reply r2) ->
  x0 r2 = 0 /\ x1 r2 = level_word (sgn64 ul) /\ x2 r2 = 1 /\ x3 r2 = w /\ x4 r2 = 0.
Proof.
  intros c h m o m1 rp rd ipa ul w r p m2 r2 H D H2. destruct (mapped_entry _ _ _ _ _ _ _ _ _ _ _ H D) as (d & a & w' & R & Hl & St & E & DS).
  destruct (read_entry _ _ _ _ _ _ _ _ _ H2) as (_ & [(OK & d2 & a2 & l2 & w2 & R2 & _ & _ & E2 & X1 & X2)|(_ & N)]).
  - assert (d2 = d) by (eapply realm_fun; eassumption). subst d2. rewrite E in E2. injection E2 as <- <- <-. rewrite DS in X2. injection X2 as -> -> ->. auto.
  - exfalso. apply N. eauto.
Qed.
