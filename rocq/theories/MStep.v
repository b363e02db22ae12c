(** Every step of the whole system keeps the invariant, and what it does *)
From Coq Require Import NArith ZArith List Bool Lia ZifyBool ZifyN.
From Verif Require Import ArchFacts  Bits S2tte S2tteFacts State Granule Wp RecFields Measure RmiGranule RmiRtt RmiRealm Psci RmiRec Gic Esr Rsi RecRun
  Arch Mmu Machine SpecExit Inv InvTree MmuFacts InvStep InvStep2 InvStep3 Effects Frames CmdLib CmdGranule CmdRtt CmdFold CmdRtt2 CmdNs CmdData CmdRipas
  CmdList CmdRealm CmdRec CmdRsi CmdRsi2 CmdRun CmdRun2 CmdAll MInv.
Import ListNotations.
Local Open Scope N_scope.

(* ------------------------------------------------------------------ *)
(** * What an access of a realm reaches *)

Inductive xres (gh : ghost) (x : s2ctx) (rd ipa : N) : xlat -> Prop :=
| xr_out : 2 ^ ipa_bits x <= ipa -> xres gh x rd ipa XFault
| xr_fault : forall l b e, Leaf gh rd (ipa / 4096) l b e -> ipa < 2 ^ ipa_bits x ->
    (forall pa, e <> EAsRam pa) -> (forall w pa, e <> EAsNs w pa) -> xres gh x rd ipa XFault
| xr_ram : forall l b pa w oa, Leaf gh rd (ipa / 4096) l b (EAsRam pa) -> ipa < 2 ^ (ipa_bits x - 1) -> w = enc (enable_lpa2 x) l (EAsRam pa) ->
    page_of oa = pa + (ipa / 4096) mod pg l * 4096 -> oa mod 4096 = ipa mod 4096 -> dmap gh (page_of oa) = Some (rd, ipa / 4096) ->
    xres gh x rd ipa (XOk l w oa false false)
| xr_ns : forall l b at_ pa w oa, Leaf gh rd (ipa / 4096) l b (EAsNs at_ pa) -> 2 ^ (ipa_bits x - 1) <= ipa < 2 ^ ipa_bits x ->
    w = enc (enable_lpa2 x) l (EAsNs at_ pa) -> page_of oa = pa + (ipa / 4096) mod pg l * 4096 -> oa mod 4096 = ipa mod 4096 ->
    xres gh x rd ipa (XOk l w oa true true).

Lemma ms_page : forall l a, (l <= 3)%Z -> a mod ms l = (a / 4096) mod pg l * 4096 + a mod 4096.
Proof.
  intros l a Hl. rewrite ms_pg by exact Hl. rewrite N.mul_comm, N.mod_mul_r; [lia|discriminate|]. pose proof (pg_pos l). lia.
Qed.
Lemma pa_page : forall l pa, (l <= 3)%Z -> pa mod ms l = 0 -> pa mod 4096 = 0.
Proof.
  intros l pa Hl H. rewrite ms_page in H by exact Hl. lia.
Qed.
Lemma oa_page : forall l pa ipa, (l <= 3)%Z -> pa mod ms l = 0 ->
  page_of (pa + ipa mod ms l) = pa + (ipa / 4096) mod pg l * 4096 /\ (pa + ipa mod ms l) mod 4096 = ipa mod 4096.
Proof.
  intros l pa ipa Hl H. apply pa_page in H; [|exact Hl]. rewrite ms_page by exact Hl. set (k := (ipa / 4096) mod pg l).
  assert (E : (pa + (k * 4096 + ipa mod 4096)) mod 4096 = ipa mod 4096).
  { replace (pa + (k * 4096 + ipa mod 4096)) with (ipa mod 4096 + (pa / 4096 + k) * 4096).
    - rewrite N.mod_add, N.mod_mod by discriminate. reflexivity.
    - pose proof (N.div_mod pa 4096). lia. }
  split; [|exact E]. unfold page_of. rewrite E. lia.
Qed.

Section Xlat.
Variables (c : cfg) (gh : ghost) (G : N -> granule) (V : N -> bool).
Hypothesis I : Inv c gh G V.

Lemma xlat_cases : forall r d ipa, is_rd G (r_g_rd r) d -> rec_ok c d r -> roots_ok (rd_ctx d) ->
  xres gh (rd_ctx d) (r_g_rd r) ipa (rec_xlat G r ipa).
Proof.
  intros r d ipa R (_ & _ & E1 & E2 & _) RO. unfold rec_xlat. rewrite E1, E2. clear E1 E2.
  pose proof (inv_ctx _ _ _ _ I _ _ R) as X. pose proof (ctx_sl _ X) as SL.
  destruct (N.le_gt_cases (2 ^ ipa_bits (rd_ctx d)) ipa) as [Ho|Hi].
  { rewrite (stage2_out _ _ _ _ I _ _ _ R Ho). apply xr_out, Ho. }
  assert (Hn : ipa / 4096 < ipan (rd_ctx d) 3) by (rewrite <- ms_3; apply (num_ipan _ X 3); [lia|exact Hi]).
  destruct (leaf_exists _ _ _ _ I _ _ _ R Hn) as (l & b & e & LF).
  rewrite (stage2_leaf _ _ _ _ I _ _ _ _ _ _ R RO Hi LF).
  pose proof LF as (O & E & T). pose proof (inv_own _ _ _ _ I _ _ _ _ _ O R) as TO. pose proof (t_level_ok _ _ _ _ _ _ _ TO) as Hl.
  pose proof (t_entries _ _ _ _ _ _ _ TO _ (mod512_lt (ipa / 4096 / pg l))) as EO. rewrite E, <- div512, <- num_page in EO by lia.
  destruct EO as [VE EO].
  destruct e; cbn [leaf_x]; try (eapply xr_fault; [exact LF|exact Hi|intros; discriminate|intros; discriminate]).
  - destruct VE as [_ [P1 _]]. destruct (oa_page l pa ipa ltac:(lia) P1) as [K1 K2]. eapply xr_ram; try eassumption; try reflexivity.
    + apply (num_parn _ X l); [exact Hl|apply EO].
    + rewrite K1. apply EO. rewrite num_page by lia. reflexivity.
  - destruct VE as [_ [[P1 _] _]]. destruct (oa_page l pa ipa ltac:(lia) P1) as [K1 K2]. eapply xr_ns; try eassumption; try reflexivity.
    split; [|exact Hi]. destruct (N.le_gt_cases (2 ^ (ipa_bits (rd_ctx d) - 1)) ipa) as [K|K]; [exact K|].
    apply (num_parn _ X l) in K; [|exact Hl]. lia.
Qed.
End Xlat.

(* ------------------------------------------------------------------ *)
(** * What a step does *)

Definition same_rest (m m' : mstate) : Prop := m_tlb m' = m_tlb m /\ m_cpu m' = m_cpu m /\ m_att m' = m_att m.

Definition op_eff (c : cfg) (h : hw) (gh : ghost) (m : mstate) (o : op) (rp : reply) (gh' : ghost) (labs : list label) (m' : mstate) : Prop :=
  let G := m_gr m in
  match o with
  | OCmd p k => m_cpu m p = None /\ exists r inv, rp = Reply r /\ cmd_eff c gh G (m_vmids m) k r gh' labs inv /\
      m_tlb m' = invals inv (m_tlb m) /\ m_cpu m' = m_cpu m /\ m_att m' = att_after k r (m_att m)
  | OEnter p a ra en fi tm => m_cpu m p = None /\ gh' = gh /\ exists out, ent_out c h fi tm gh G a ra en (m_att m a) labs out /\
      m_tlb m' = m_tlb m /\ m_att m' = m_att m /\
      match out with
      | EReturn ret x => rp = Exited ret x /\ m_cpu m' = m_cpu m
      | ERun x => rp = Entered /\ m_cpu m' = upd (m_cpu m) p (Some (mkRun a x false))
      end
  | OExit p ev fi tm => gh' = gh /\ exists ru r d out at_ simd, m_cpu m p = Some ru /\ is_rec G (ru_rec ru) r /\ is_rd G (r_g_rd r) d /\
      run_out c h gh G d ev fi tm (ru_rec ru) (mkV r (ru_exit ru) (m_att m (ru_rec ru))) (ru_simd ru) labs (out, at_, simd) /\
      m_tlb m' = m_tlb m /\ m_att m' = upd (m_att m) (ru_rec ru) at_ /\
      match out with
      | EReturn ret x => rp = Exited ret x /\ m_cpu m' = upd (m_cpu m) p None
      | ERun x => rp = Entered /\ m_cpu m' = upd (m_cpu m) p (Some (mkRun (ru_rec ru) x simd))
      end
  | ORegs p regs sp pc pstate sys => gh' = gh /\ rp = NoReply /\ same_rest m m' /\ exists ru r, m_cpu m p = Some ru /\ is_rec G (ru_rec ru) r /\
      labs = [LRec (ru_rec ru) r (realm_regs r regs sp pc pstate sys) 1]
  | OLoad p ipa rt => gh' = gh /\ rp = NoReply /\ same_rest m m' /\ exists ru r d l w oa ns xn f, m_cpu m p = Some ru /\ is_rec G (ru_rec ru) r /\
      is_rd G (r_g_rd r) d /\ rec_xlat G r ipa = XOk l w oa ns xn /\ xres gh (rd_ctx d) (r_g_rd r) ipa (XOk l w oa ns xn) /\
      (if ns then g_state (G (page_of oa)) = NS else g_state (G (page_of oa)) = DATA) /\ g_mem (G (page_of oa)) = CW f /\
      labs = [LRec (ru_rec ru) r (set_reg r rt (f (oa mod 4096 / 8))) 1]
  | OStore p ipa v => gh' = gh /\ rp = NoReply /\ same_rest m m' /\ exists ru r d l w oa ns xn f, m_cpu m p = Some ru /\ is_rec G (ru_rec ru) r /\
      is_rd G (r_g_rd r) d /\ rec_xlat G r ipa = XOk l w oa ns xn /\ xres gh (rd_ctx d) (r_g_rd r) ipa (XOk l w oa ns xn) /\
      (if ns then g_state (G (page_of oa)) = NS else g_state (G (page_of oa)) = DATA) /\ g_mem (G (page_of oa)) = CW f /\
      labs = [LFree (page_of oa) (mkG (g_state (G (page_of oa))) 0 (CW (upd f (oa mod 4096 / 8) v)))]
  | OFill p ipa => gh' = gh /\ rp = NoReply /\ labs = [] /\ m_cpu m' = m_cpu m /\ m_att m' = m_att m /\
      exists ru r d l w oa ns xn, m_cpu m p = Some ru /\ is_rec G (ru_rec ru) r /\ is_rd G (r_g_rd r) d /\
        rec_xlat G r ipa = XOk l w oa ns xn /\ xres gh (rd_ctx d) (r_g_rd r) ipa (XOk l w oa ns xn) /\
        m_tlb m' = mkTlbe (vmid (rd_ctx d)) l (ipa - ipa mod ms l) w :: m_tlb m
  | OAux p a f => gh' = gh /\ rp = NoReply /\ same_rest m m' /\ exists ru r, m_cpu m p = Some ru /\ is_rec G (ru_rec ru) r /\ In a (r_aux r) /\
      g_state (G a) = REC_AUX /\ labs = [LFree a (mkG REC_AUX 0 (CW f))]
  | OHost a i v => gh' = gh /\ rp = NoReply /\ same_rest m m' /\ exists f, g_state (G a) = NS /\ g_mem (G a) = CW f /\
      labs = [LFree a (mkG NS 0 (CW (upd f i v)))]
  end.

Lemma no_create : forall c gh G V k r gh' labs inv a d, cmd_eff c gh G V k r gh' labs inv -> In (LRealmCreate a d) labs ->
  exists p pa, k = KRealmCreate (Some p) a pa /\ d = created_rd c p /\ realm_params_valid c p = true.
Proof.
  intros c gh G V k r gh' labs inv a d K IN. unfold cmd_eff in K. cbv zeta in K.
  assert (CH : forall rd l u f n i m x, In (LRealmCreate a d) (chg rd l u f n i m ++ [x]) -> x = LRealmCreate a d).
  { intros rd l u f n i m x H. apply in_app_or in H. destruct H as [H|[H|[]]]; [|exact H]. apply chg_in in H. destruct H as (? & ? & ? & H). discriminate H. }
  destruct k as [| | | | | | | | |ps rd pa| |ps rd0 a0 pa|a0| | | | | |ca ta st| | |rd base top|rd a0 base top].
  all: try (destruct K as [(_ & (-> & _) & _)|(_ & K)]; [destruct IN|]).
  all: try (repeat match goal with H : exists _, _ |- _ => destruct H | H : _ /\ _ |- _ => destruct H end; subst;
    solve [repeat (destruct IN as [IN|IN]; [discriminate IN|]); destruct IN]).
  - destruct K as (_ & p & -> & _ & Hp & _ & _ & _ & _ & _ & ->). destruct IN as [IN|[]]. injection IN as -> <-. eauto.
  - destruct K as (_ & [(_ & -> & _)|(rc & rt & rc' & rt' & n & Rc & Rt & Fc & P & ->)]); [destruct IN|]. destruct IN as [IN|[IN|[]]]; discriminate IN.
  - destruct K as (_ & d0 & wi & n & _ & _ & _ & _ & _ & _ & _ & _ & ->). apply CH in IN. discriminate IN.
  - destruct K as (d0 & rc & wi & n & K). cbv zeta in K. destruct K as (_ & R & _ & Rf & _ & _ & _ & _ & _ & -> & _). apply CH in IN. discriminate IN.
Qed.

Lemma created_roots : forall c p, realm_params_valid c p = true -> op_ok (OCmd 0 (KRealmCreate (Some p) 0 0)) -> roots_ok (rd_ctx (created_rd c p)).
Proof.
  intros c p H [O1 O2]. unfold roots_ok. cbn [rd_ctx created_rd set_meas new_rd g_rtt num_root_rtts enable_lpa2].
  split; [exact O1|exact O2].
Qed.

Lemma exit_off : forall c h gh G d ev v simd labs o, exit_out c h gh G d ev v simd labs o -> no_request (v_rec v) -> off_ok (v_rec (fst (fst o))).
Proof.
  intros c h gh G d ev v simd labs o H (N1 & N2 & N3 & N4).
  assert (ALL : forall r, pend r = pend (v_rec v) -> off_ok r).
  { intros r E. unfold pend in E. injection E as E1 E2 E3 E4. intro X. congruence. }
  destruct H as [| | |r' He Hr|r' x' simd' go Hx He Hs|labs o Hx He Hs]; cbn [fst snd].
  - apply ALL. reflexivity.
  - apply ALL. reflexivity.
  - apply ALL. reflexivity.
  - apply ALL. subst r'. destruct (_ || _); reflexivity.
  - apply sync_keeps in Hs. destruct Hs as (_ & K2 & _). destruct go; apply ALL; exact K2.
  - assert (RES : forall o', off_ok (v_rec (fst o')) -> off_ok (v_rec (if snd (rsi_result o') then fst (rsi_result o') else keep_last ev (fst (rsi_result o'))))).
    { intros [[r1 x1 a1] s] K. cbn [fst snd v_rec] in K. unfold rsi_result. cbv zeta. cbn [fst snd v_rec v_exit v_att].
      destruct (ra_update s), (ra_abort s); cbn [fst snd]; destruct (ra_exit s); cbn [negb]; exact K. }
    apply RES. destruct Hs; cbn [fst v_rec v_set_exit v_set_rec v_set_att]; try (apply ALL; reflexivity).
    + intro X. change (r_runnable (v_rec v) = false) in X. congruence.
    + intro X. change (r_runnable (v_rec v) = false) in X. congruence.
    + intro X. change (r_runnable (v_rec v) = false) in X. congruence.
    + intro X. split; [exact N1|exact N2].
Qed.

Lemma exit_labels : forall c h gh G d ev v simd labs o a, exit_out c h gh G d ev v simd labs o ->
  only_rec a labs /\ forall b d0, ~ In (LRealmCreate b d0) labs.
Proof.
  intros c h gh G d ev v simd labs o a H.
  assert (N : only_rec a [] /\ forall b d0, ~ In (LRealmCreate b d0) []) by (split; [constructor|intros b d0 []]).
  assert (O : forall x, rec_lab x = false -> (forall b d0, x <> LRealmCreate b d0) -> only_rec a [x] /\ forall b d0, ~ In (LRealmCreate b d0) [x]).
  { intros x H1 H2. split; [constructor; [left; exact H1|constructor]|]. intros b d0 [E|[]]. apply (H2 b d0 E). }
  destruct H as [| | |r' He Hr|r' x' simd' go Hx He Hs|labs o Hx He Hs]; try exact N.
  destruct Hs; try exact N; apply O; try reflexivity; intros; discriminate.
Qed.

Lemma hc_labels : forall gh G rd x r6 e hl o a, hc_out gh G rd x r6 e hl o -> only_rec a hl /\ forall b d0, ~ In (LRealmCreate b d0) hl.
Proof.
  intros gh G rd x r6 e hl o a [(_ & -> & _)|[(_ & l & b & pa & g & f & _ & _ & _ & _ & -> & _)|(_ & -> & _)]].
  - split; [constructor|intros b d0 []].
  - split; [constructor; [left; reflexivity|constructor]|]. intros b0 d0 [E|[]]. discriminate E.
  - split; [constructor|intros b d0 []].
Qed.

Section Step.
Variables (c : cfg) (h : hw) (gh : ghost) (m : mstate).
Hypothesis C : cfg_ok c.
Hypothesis M : MInv c gh m.
Let G := m_gr m.
Let V := m_vmids m.
Let I : Inv c gh G V := mv_inv _ _ _ M.

Definition step_good (o : op) (rp : reply) (m' : mstate) : Prop :=
  exists gh' labs, MInv c gh' m' /\ geffs c gh G V labs gh' (m_gr m') (m_vmids m') /\ op_eff c h gh m o rp gh' labs m'.

Lemma idle_slots : forall p, m_cpu m p = None -> free (m_slots m p).
Proof. intros p E z. rewrite (mv_slots _ _ _ M), E. reflexivity. Qed.

Lemma slots_back : forall p (S' : N -> bool), m_cpu m p = None -> free S' -> forall q z, upd (m_slots m) p S' q z = m_slots m q z.
Proof.
  intros p S' E F q z. unfold upd. destruct (N.eqb_spec q p) as [->|]; [|reflexivity]. rewrite F. symmetry. apply idle_slots, E.
Qed.

Lemma step_cmd : forall p k m' rp, op_ok (OCmd p k) -> step c h m (OCmd p k) = RDone m' rp -> step_good (OCmd p k) rp m'.
Proof.
  intros p k m' rp OK ST. cbn [step] in ST. destruct (m_cpu m p) eqn:Ep; [discriminate|].
  pose proof (wp_cmd c gh G V C I (m_locks m) (m_slots m p) (m_tlb m) (mv_locks _ _ _ M) (idle_slots p Ep) k) as W.
  unfold cpu_state in ST. fold G V in ST. unfold wp in W.
  destruct (run (cmd_prog c G k) (mkS (m_locks m) (m_slots m p) G V (m_tlb m))) as [r s| |] eqn:RU; try discriminate.
  injection ST as <- <-. destruct W as ((QL & QS) & labs & gh' & inv & GE & T1 & K).
  exists gh', labs. split; [|split; [exact GE|]].
  - destruct (cmd_recs c gh m M k r gh' labs inv (s_gr s) (s_vmids s) GE K) as (K1 & K2).
    apply (minv_keep c gh m M gh' labs (back m p s (m_cpu m) (att_after k r (m_att m)))); try assumption.
    + intros q z. apply slots_back; assumption.
    + reflexivity.
    + intro a. cbn [back m_att]. unfold att_after. destruct k; try apply (mv_att _ _ _ M).
      destruct (x0 r =? RMI_SUCCESS); [|apply (mv_att _ _ _ M)]. unfold upd. destruct (a =? rec); [left; reflexivity|apply (mv_att _ _ _ M)].
    + intros a d IN. destruct (no_create _ _ _ _ _ _ _ _ _ _ _ K IN) as (q & pa & -> & -> & HV). split; [apply created_roots; assumption|].
      destruct K as [(_ & (-> & _) & _)|(_ & _ & q' & E & _ & _ & _ & _ & _ & _ & _ & ->)]; [destruct IN|].
      inversion GE as [|? ? ? ? gh1 G1 V1 ? ? ? ? X1 X2]; subst. inversion X1; subst. fold G. congruence.
  - split; [exact Ep|]. exists r, inv. repeat (split; [first [assumption|reflexivity]|]). reflexivity.
Qed.

Lemma on_upd : forall cpu p v q a, on (upd cpu p v) q = Some a <-> (q = p /\ option_map ru_rec v = Some a) \/ (q <> p /\ on cpu q = Some a).
Proof. intros. unfold on, upd. destruct (N.eqb_spec q p) as [->|]; split; intro H; try tauto; destruct H; tauto. Qed.

Lemma pend_entry : forall f r e r6, pend_ok r -> r_runnable r = true -> r_psci_pending r = false -> entry_rec f r e = Some r6 ->
  (pend_ok r6 /\ off_ok r6) /\ realm_mode (r_pstate r6) /\ sr_base (r_set_ripas r6) = sr_top (r_set_ripas r6) /\ r_runnable r6 = true /\ r_psci_pending r6 = false.
Proof.
  intros f r e r6 (P1 & P2 & P3) Hr Hp E. destruct (entry_keeps _ _ _ _ E) as (K1 & K2 & K3 & K4 & K5 & K6 & K7 & K8 & K9).
  assert (Er : r_runnable r6 = true) by congruence. assert (Ep : r_psci_pending r6 = false) by congruence.
  split; [|auto]. split; [|intro; congruence]. split; [auto|]. split.
  - intro X. rewrite K2 in X. destruct (P2 X) as (X1 & X2 & X3 & X4). split; [exact K5|]. rewrite K8. split; [exact X2|]. rewrite (K9 X1 X2).
    destruct (ident_parts _ _ K1) as (_ & -> & _). auto.
  - intro X. congruence.
Qed.

Lemma idle_off : forall r, realm_mode (r_pstate r) -> no_request r -> pend_ok r /\ off_ok r.
Proof.
  intros r H (N1 & N2 & N3 & N4). split.
  - split; [exact H|]. split; intro X; congruence.
  - intro X. congruence.
Qed.

Lemma step_enter : forall p a ra en fi tm m' rp, step c h m (OEnter p a ra en fi tm) = RDone m' rp -> step_good (OEnter p a ra en fi tm) rp m'.
Proof.
  intros p a ra en fi tm m' rp ST. cbn [step] in ST. destruct (m_cpu m p) eqn:Ep; [discriminate|].
  assert (PO : forall r, is_rec G a r -> pend_ok r) by (intros r R; apply (mv_pend _ _ _ M a r R)).
  pose proof (wp_rec_enter c gh G V I (m_locks m) (m_slots m p) (m_tlb m) (mv_locks _ _ _ M) (idle_slots p Ep) h fi tm a ra en (m_att m a) PO) as W.
  unfold cpu_state in ST. fold G V in ST. unfold wp in W.
  destruct (run (smc_rec_enter c h fi tm a ra en (m_att m a)) (mkS (m_locks m) (m_slots m p) G V (m_tlb m))) as [out s| |] eqn:RU; try discriminate.
  destruct W as (L' & S' & G' & labs & -> & FL & BS & GE & EO).
  assert (Eout : exists cpu', m' = mkM L' (upd (m_slots m) p S') G' V (m_tlb m) cpu' (m_att m) /\
    match out with EReturn ret x => rp = Exited ret x /\ cpu' = m_cpu m | ERun x => rp = Entered /\ cpu' = upd (m_cpu m) p (Some (mkRun a x false)) end).
  { destruct out; injection ST as <- <-; eexists; (split; [reflexivity|split; reflexivity]). }
  destruct Eout as (cpu' & -> & EC). clear ST RU.
  exists gh, labs. split; [|split; [exact GE|]].
  2:{ cbn [op_eff]. split; [exact Ep|]. split; [reflexivity|]. exists out. split; [exact EO|]. split; [reflexivity|]. split; [reflexivity|]. destruct out; exact EC. }
  assert (NOTON : forall r, is_rec G a r -> g_ref (G a) = 0 -> forall q, on (m_cpu m) q <> Some a).
  { intros r R Rf q E. destruct (mv_run _ _ _ M q a E) as (r0 & _ & X & _). fold G in X. congruence. }
  assert (RET : forall labs r r' ret x, geffs c gh G V (labs ++ [LRec a r r' 0]) gh G' V -> only_rec a labs -> (forall b d, ~ In (LRealmCreate b d) labs) ->
     (forall q, on (m_cpu m) q <> Some a) -> out = EReturn ret x -> pend_ok r' /\ off_ok r' -> MInv c gh (mkM L' (upd (m_slots m) p S') G' V (m_tlb m) cpu' (m_att m))).
  { intros labs0 r r' ret x GE0 OR NC NO Eo PP. subst out. destruct EC as [_ ->].
    eapply (minv_rec c gh m M gh labs0 a r r' 0); try eassumption; cbn [m_slots m_cpu m_att].
    - intros q z. rewrite slots_back by assumption. apply (mv_slots _ _ _ M).
    - apply (mv_att _ _ _ M).
    - reflexivity.
    - discriminate.
    - intros _. exact NO. }
  assert (ANS : forall wok x, exists ret y, answer wok x = EReturn ret y) by (intros [] x; eexists _, _; reflexivity).
  assert (R1L : forall r r1 hl e' o0 rd x r6, hc_out gh G rd x r6 e' hl o0 -> only_rec a (LRec a r r1 1 :: hl) /\ forall b d0, ~ In (LRealmCreate b d0) (LRec a r r1 1 :: hl)).
  { intros r r1 hl e' o0 rd x r6 HC. destruct (hc_labels _ _ _ _ _ _ _ _ a HC) as [X1 X2]. split; [constructor; [right; eauto|exact X1]|].
    intros b d0 [E|E]; [discriminate E|apply (X2 _ _ E)]. }
  destruct EO as [code HB|r d e He R Rf Rd St Ru Ps Gv En|r d e r6 l He R Rf Rd St Ru Ps Gv En HC Hl
                 |r r1 d e r6 hl r7 l He R Rf Rd St Ru Ps Gv En HC Er1 El Sl|r r1 d e r6 hl r7 l v' He R Rf Rd St Ru Ps Gv En HC Er1 El Sl Ev].
  - destruct EC as [_ ->]. inversion GE as [? ? ? ? ? HG HV|]; subst.
    apply (minv_keep c gh m M gh []); cbn [m_gr m_vmids m_locks m_slots m_cpu m_att]; try assumption.
    + intros q z. apply slots_back; assumption.
    + reflexivity.
    + apply (mv_att _ _ _ M).
    + intros b d [].
    + intros b _ _. apply HG.
    + intros b r' [S1 M1]. rewrite HG in S1, M1. split; [apply (mv_pend _ _ _ M b); split; assumption|]. rewrite HG. auto.
  - eapply (RET []); [exact GE|constructor|intros b d0 []|apply (NOTON r); assumption|reflexivity|].
    destruct (mv_pend _ _ _ M a r R) as (P1 & P2). split; [exact P1|exact P2].
  - destruct (pend_entry _ _ _ _ (PO r R) Ru Ps En) as (PP & _). destruct (ANS (fi_wok fi) (fault_exit r6 exit_zero l)) as (ret & y & Ea).
    eapply (RET []); [exact GE|constructor|intros b d0 []|apply (NOTON r); assumption|exact Ea|exact PP].
  - destruct (pend_entry _ _ _ _ (PO r R) Ru Ps En) as (PP & P2 & P3 & P4 & P5).
    destruct (hc_keeps _ _ _ _ _ _ _ _ HC) as (W1 & W2 & W3 & W4 & W5 & W6 & _).
    pose proof (head_keeps tm (mkV (start_rec r7 e) exit_zero (m_att m a))) as (W7 & W8 & W9 & _). rewrite <- El in W7, W8, W9. cbn [v_rec] in W7, W8, W9.
    destruct (start_keeps r7 e) as (X1 & X2 & X3 & _). rewrite X2 in W8. rewrite X3 in W9.
    assert (NR : no_request (v_rec (fst l))).
    { unfold pend in W8. injection W8 as Y1 Y2 Y3 Y4. unfold no_request. rewrite Y1, Y2, Y3, Y4, W2, W3, W4, W5. auto. }
    destruct EC as [_ ->]. destruct (R1L r r1 hl e _ _ _ _ HC) as [OR NC].
    apply (minv_rec c gh m M gh (LRec a r r1 1 :: hl) a r1 (v_rec (fst l)) 1); cbn [m_gr m_vmids m_locks m_slots m_cpu m_att]; try assumption.
    + intros q z. unfold upd. destruct (N.eqb_spec q p) as [->|]; [apply BS|apply (mv_slots _ _ _ M)].
    + apply (mv_att _ _ _ M).
    + intros q b nb. rewrite on_upd. cbn [option_map ru_rec]. split.
      * intros [(_ & E)|(_ & E)]; [congruence|exact E].
      * intro E. right. split; [|exact E]. intros ->. unfold on in E. rewrite Ep in E. discriminate E.
    + intros _. split; [|split; [exact NR|]].
      * exists p. rewrite on_upd. split; [left; auto|]. intros q E. apply on_upd in E. destruct E as [(E & _)|(_ & E)]; [exact E|]. exfalso. apply (NOTON r R Rf q E).
      * intros d0 R0. subst r1. change (r_g_rd (set_gic r _)) with (r_g_rd r) in R0. fold G in R0. destruct R0 as [R01 R02], Rd as [R11 R12].
        assert (d0 = d) by congruence. subst d0. rewrite St. discriminate.
    + discriminate.
    + apply idle_off; [|exact NR]. rewrite W9, W6. exact P2.
  - destruct (pend_entry _ _ _ _ (PO r R) Ru Ps En) as (PP & P2 & P3 & P4 & P5).
    destruct (hc_keeps _ _ _ _ _ _ _ _ HC) as (W1 & W2 & W3 & W4 & W5 & W6 & _).
    pose proof (head_keeps tm (mkV (start_rec r7 e) exit_zero (m_att m a))) as (W7 & W8 & W9 & _). rewrite <- El in W7, W8, W9. cbn [v_rec] in W7, W8, W9.
    destruct (start_keeps r7 e) as (X1 & X2 & X3 & _). rewrite X2 in W8. rewrite X3 in W9.
    pose proof (end_keeps (h_gic h) fi (fst l) false) as (Z1 & Z2 & Z3 & _). rewrite <- Ev in Z1, Z2, Z3. rewrite W8 in Z2. rewrite W9 in Z3.
    assert (NR : no_request (v_rec v')).
    { unfold pend in Z2. injection Z2 as Y1 Y2 Y3 Y4. unfold no_request. rewrite Y1, Y2, Y3, Y4, W2, W3, W4, W5. auto. }
    destruct (R1L r r1 hl e _ _ _ _ HC) as [OR NC]. destruct (ANS (fi_wok fi) (v_exit v')) as (ret & y & Ea).
    eapply (RET (LRec a r r1 1 :: hl)); [exact GE|exact OR|exact NC|apply (NOTON r); assumption|exact Ea|].
    apply idle_off; [|exact NR]. rewrite Z3, W6. exact P2.
Qed.

Lemma runs : forall p ru, m_cpu m p = Some ru -> exists r d, is_rec G (ru_rec ru) r /\ g_ref (G (ru_rec ru)) = 1 /\ no_request r /\ realm_mode (r_pstate r) /\
  is_rd G (r_g_rd r) d /\ rec_ok c d r /\ rd_state d <> REALM_NEW /\ (forall x, In x (r_aux r) -> auxo gh x = Some (ru_rec ru)).
Proof.
  intros p ru Ep. assert (Eo : on (m_cpu m) p = Some (ru_rec ru)) by (unfold on; rewrite Ep; reflexivity).
  destruct (mv_run _ _ _ M p _ Eo) as (r & R & Rf & NR & NN). fold G in R, Rf, NN.
  destruct (i_rec _ _ _ _ I _ (proj1 R)) as (_ & r2 & d & M2 & Rd & O & _ & AX). destruct R as [R1 R2]. assert (r2 = r) by congruence. subst r2.
  exists r, d. split; [split; assumption|]. split; [exact Rf|]. split; [exact NR|]. split; [apply (mv_pend _ _ _ M (ru_rec ru) r); split; assumption|].
  split; [exact Rd|]. split; [exact O|]. split; [apply NN, Rd|exact AX].
Qed.

Lemma step_exit : forall p ev fi tm m' rp, cca_ok (ev_att ev) -> step c h m (OExit p ev fi tm) = RDone m' rp -> step_good (OExit p ev fi tm) rp m'.
Proof.
  intros p ev fi tm m' rp Hc ST. cbn [step] in ST. destruct (m_cpu m p) as [ru|] eqn:Ep; [|discriminate].
  destruct (runs p ru Ep) as (r & d & R & Rf & NR & Md & Rd & O & NN & _). set (a := ru_rec ru) in *.
  assert (BS0 : forall z, m_slots m p z = busy z) by (intro z; rewrite (mv_slots _ _ _ M), Ep; reflexivity).
  pose proof (wp_run_exit c gh G V I (m_locks m) (m_slots m p) (m_tlb m) (mv_locks _ _ _ M) BS0 h ev fi tm a r d (ru_exit ru) (m_att m a) (ru_simd ru)
    R Rf Rd O NR Md Hc (mv_att _ _ _ M a)) as W.
  unfold cpu_state in ST. fold G V in ST. unfold wp in W.
  destruct (run (rec_run_exit c h ev fi tm a (ru_exit ru) (m_att m a) (ru_simd ru)) (mkS (m_locks m) (m_slots m p) G V (m_tlb m))) as [[[out at_] simd] s| |] eqn:RU; try discriminate.
  destruct W as (L' & S' & G' & labs & -> & FL & BS & GE & EO). cbn [fst] in BS.
  assert (Eout : exists cpu', m' = mkM L' (upd (m_slots m) p S') G' V (m_tlb m) cpu' (upd (m_att m) a at_) /\
    match out with EReturn ret x => rp = Exited ret x /\ cpu' = upd (m_cpu m) p None | ERun x => rp = Entered /\ cpu' = upd (m_cpu m) p (Some (mkRun a x simd)) end).
  { destruct out; injection ST as <- <-; eexists; (split; [reflexivity|split; reflexivity]). }
  destruct Eout as (cpu' & -> & EC). clear ST RU.
  exists gh, labs. split; [|split; [exact GE|]].
  2:{ cbn [op_eff]. split; [reflexivity|]. exists ru, r, d, out, at_, simd. fold a. repeat (split; [assumption|]). split; [reflexivity|]. split; [reflexivity|]. destruct out; exact EC. }
  assert (OP : on (m_cpu m) p = Some a) by (unfold on; rewrite Ep; reflexivity).
  assert (ONLY : forall q, on (m_cpu m) q = Some a -> q = p) by (intros q E; apply (mv_once _ _ _ M _ _ _ E OP)).
  assert (OTH : forall v q b, b <> a -> (v = None \/ option_map ru_rec v = Some a) -> (on (upd (m_cpu m) p v) q = Some b <-> on (m_cpu m) q = Some b)).
  { intros v q b nb Hv. rewrite on_upd. split.
    - intros [(_ & E)|(_ & E)]; [|exact E]. destruct Hv as [->|Hv]; [discriminate E|]. congruence.
    - intro E. right. split; [|exact E]. intros ->. congruence. }
  assert (ND : forall d0, is_rd G (r_g_rd r) d0 -> rd_state d0 <> REALM_NEW).
  { intros d0 [R01 R02]. destruct Rd as [R11 R12]. assert (d0 = d) by congruence. subst d0. exact NN. }
  set (v0 := mkV r (ru_exit ru) (m_att m a)) in *.
  assert (KEEP : forall labs0 v1 simd' go, exit_out c h gh G d ev v0 (ru_simd ru) labs0 (v1, simd', go) ->
    only_rec a labs0 /\ (forall b d0, ~ In (LRealmCreate b d0) labs0) /\ pend_ok (v_rec v1) /\ off_ok (v_rec v1) /\ att_ok (v_att v1) /\
    realm_mode (r_pstate (v_rec v1)) /\ (go = true -> no_request (v_rec v1))).
  { intros labs0 v1 simd' go EX.
    destruct (exit_keeps _ _ _ _ _ _ _ _ _ _ EX (par_size _ _ _ _ I _ _ Rd) (proj1 O) NR) as (K1 & K2 & K3 & K4 & K5 & K6);
      [apply O|exact Md|apply (mv_att _ _ _ M a)|].
    destruct (exit_labels _ _ _ _ _ _ _ _ _ _ a EX) as [X1 X2]. pose proof (exit_off _ _ _ _ _ _ _ _ _ _ EX NR) as X3.
    cbn [fst snd] in *. auto 8. }
  assert (ATT : forall at0, att_ok at0 -> forall b, att_ok (upd (m_att m) a at0 b)).
  { intros at0 Ha b. unfold upd. destruct (b =? a); [exact Ha|apply (mv_att _ _ _ M)]. }
  assert (RET : forall labs0 r' ret x at0, geffs c gh G V (labs0 ++ [LRec a r r' 0]) gh G' V -> only_rec a labs0 -> (forall b d, ~ In (LRealmCreate b d) labs0) ->
     out = EReturn ret x -> att_ok at0 -> at0 = at_ -> pend_ok r' /\ off_ok r' -> MInv c gh (mkM L' (upd (m_slots m) p S') G' V (m_tlb m) cpu' (upd (m_att m) a at_))).
  { intros labs0 r' ret x at0 GE0 OR NC Eo At <- PP. subst out. destruct EC as [_ ->].
    eapply (minv_rec c gh m M gh labs0 a r r' 0); try eassumption; cbn [m_slots m_cpu m_att].
    - intros q z. unfold upd. destruct (N.eqb_spec q p) as [->|]; [apply BS|apply (mv_slots _ _ _ M)].
    - apply ATT, At.
    - intros q b nb. apply OTH; auto.
    - discriminate.
    - intros _ q E. apply on_upd in E. destruct E as [(_ & E)|(E1 & E)]; [discriminate E|]. apply E1, ONLY, E. }
  assert (ANS : forall wok x, exists ret y, answer wok x = EReturn ret y) by (intros [] x; eexists _, _; reflexivity).
  inversion EO as [labs0 v1 simd' l EX El Sl E1 E2|labs0 v1 simd' l v' EX El Sl Ev E1 E2|labs0 v1 simd' v' EX Ev E1 E2]; subst labs.
  - destruct (KEEP _ _ _ _ EX) as (OR & NC & P1 & P2 & P3 & P4 & P5). subst out at_ simd. destruct EC as [_ ->].
    pose proof (head_keeps tm v1) as (W7 & W8 & W9 & _). rewrite <- El in W7, W8, W9.
    assert (NR1 : no_request (v_rec (fst l))).
    { unfold pend in W8. injection W8 as Y1 Y2 Y3 Y4. unfold no_request. rewrite Y1, Y2, Y3, Y4. apply P5. reflexivity. }
    apply (minv_rec c gh m M gh labs0 a r (v_rec (fst l)) 1); cbn [m_gr m_vmids m_locks m_slots m_cpu m_att]; try assumption.
    + intros q z. unfold upd. destruct (N.eqb_spec q p) as [->|]; [apply BS|apply (mv_slots _ _ _ M)].
    + apply ATT, P3.
    + intros q b nb. apply OTH; auto.
    + intros _. split; [|split; [exact NR1|exact ND]]. exists p. rewrite on_upd. split; [left; auto|].
      intros q E. apply on_upd in E. destruct E as [(E & _)|(E1 & E)]; [exact E|apply ONLY, E].
    + discriminate.
    + apply idle_off; [rewrite W9; exact P4|exact NR1].
  - destruct (KEEP _ _ _ _ EX) as (OR & NC & P1 & P2 & P3 & P4 & P5).
    pose proof (head_keeps tm v1) as (W7 & W8 & W9 & _). rewrite <- El in W7, W8, W9.
    pose proof (end_keeps (h_gic h) fi (fst l) simd') as (Z1 & Z2 & Z3 & _). rewrite <- Ev in Z1, Z2, Z3. rewrite W8 in Z2. rewrite W9 in Z3.
    assert (NR1 : no_request (v_rec v')).
    { unfold pend in Z2. injection Z2 as Y1 Y2 Y3 Y4. unfold no_request. rewrite Y1, Y2, Y3, Y4. apply P5. reflexivity. }
    destruct (ANS (fi_wok fi) (v_exit v')) as (ret & y & Ea).
    subst out at_ simd. eapply (RET labs0 (v_rec v') ret y (v_att v1)); try eassumption; [reflexivity|].
    apply idle_off; [rewrite Z3; exact P4|exact NR1].
  - destruct (KEEP _ _ _ _ EX) as (OR & NC & P1 & P2 & P3 & P4 & P5).
    pose proof (end_keeps (h_gic h) fi v1 simd') as (Z1 & Z2 & Z3 & Z4 & Z5 & _). rewrite <- Ev in Z1, Z2, Z3, Z4, Z5.
    destruct (ANS (fi_wok fi) (v_exit v')) as (ret & y & Ea).
    subst out at_ simd. eapply (RET labs0 (v_rec v') ret y (v_att v1)); try eassumption; [reflexivity|].
    unfold pend in Z2. injection Z2 as Y1 Y2 Y3 Y4. destruct (ident_parts _ _ Z1) as (_ & Y5 & _).
    split.
    + unfold pend_ok. rewrite Z3, Y1, Y2, Y3, Z4, Z5, Y5. exact P1.
    + unfold off_ok. rewrite Y2, Y3, Y4. exact P2.
Qed.

Lemma running_some : forall p ru r, running_rec m p = Some (ru, r) -> m_cpu m p = Some ru /\ g_mem (G (ru_rec ru)) = CRec r.
Proof.
  intros p ru r H. unfold running_rec in H. destruct (m_cpu m p) as [ru0|]; [|discriminate].
  destruct (g_mem (m_gr m (ru_rec ru0))) eqn:E; try discriminate. injection H as <- <-. auto.
Qed.

Lemma runs_rec : forall p ru r, running_rec m p = Some (ru, r) -> m_cpu m p = Some ru /\ exists d, is_rec G (ru_rec ru) r /\ g_ref (G (ru_rec ru)) = 1 /\ no_request r /\
  realm_mode (r_pstate r) /\ is_rd G (r_g_rd r) d /\ rec_ok c d r /\ rd_state d <> REALM_NEW /\ (forall x, In x (r_aux r) -> auxo gh x = Some (ru_rec ru)).
Proof.
  intros p ru r H. apply running_some in H. destruct H as [Ep E]. split; [exact Ep|].
  destruct (runs p ru Ep) as (r0 & d & R & K). assert (r0 = r) by (destruct R; congruence). subst r0. exists d. auto.
Qed.

(** A running realm changes its registers *)
Lemma keep_regs : forall p ru r d r', m_cpu m p = Some ru -> is_rec G (ru_rec ru) r -> g_ref (G (ru_rec ru)) = 1 -> no_request r -> is_rd G (r_g_rd r) d ->
  rd_state d <> REALM_NEW -> ident r' = ident r -> pend r' = pend r -> realm_mode (r_pstate r') ->
  MInv c gh (put_m_rec m (ru_rec ru) r') /\ geffs c gh G V [LRec (ru_rec ru) r r' 1] gh (m_gr (put_m_rec m (ru_rec ru) r')) V.
Proof.
  intros p ru r d r' Ep R Rf NR Rd NN Hi Hp Hm. set (a := ru_rec ru) in *.
  assert (GE : geffs c gh G V [LRec a r r' 1] gh (m_gr (put_m_rec m a r')) V).
  { apply geffs_one, (rec_label c gh G V); [exact R|exact Hi| |lia|].
    - intros d0 _ X. unfold pend in Hp. injection Hp as Hp _ _ _. rewrite Hp. exact X.
    - intro z. cbn [put_m_rec set_m_gr m_gr]. fold G. destruct R as [-> _]. rewrite Rf. reflexivity. }
  split; [|exact GE].
  assert (OP : on (m_cpu m) p = Some a) by (unfold on; rewrite Ep; reflexivity).
  assert (NR' : no_request r'). { unfold pend in Hp. injection Hp as Y1 Y2 Y3 Y4. unfold no_request. rewrite Y1, Y2, Y3, Y4. exact NR. }
  apply (minv_rec c gh m M gh [] a r r' 1); cbn [put_m_rec set_m_gr m_gr m_vmids m_locks m_slots m_cpu m_att].
  - exact GE.
  - constructor.
  - intros b d0 [].
  - apply (mv_locks _ _ _ M).
  - apply (mv_slots _ _ _ M).
  - apply (mv_att _ _ _ M).
  - reflexivity.
  - intros _. split; [|split; [exact NR'|]].
    + exists p. split; [exact OP|]. intros q E. apply (mv_once _ _ _ M _ _ _ E OP).
    + intros d0 [R01 R02]. destruct Rd as [R11 R12]. assert (d0 = d) by (unfold G in *; congruence). subst d0. exact NN.
  - discriminate.
  - apply idle_off; assumption.
Qed.

(** A granule that holds no structure changes *)
Lemma keep_word : forall a g, g_state (G a) <> REC -> g_state g <> REC ->
  ((fr (G a) /\ fr g /\ (g_state g <> NS -> find_granule c a = true)) \/ word_change (G a) g) ->
  MInv c gh (set_m_gr m a g) /\ geffs c gh G V [LFree a g] gh (m_gr (set_m_gr m a g)) V.
Proof.
  intros a g N1 N2 H.
  assert (Ea : upd G a g a = g) by apply upd_same.
  assert (GE : geffs c gh G V [LFree a g] gh (m_gr (set_m_gr m a g)) V).
  { cbn [set_m_gr m_gr]. fold G. rewrite <- Ea at 1. apply geffs_one, g_free.
    - rewrite Ea. exact H.
    - intros z nz. apply upd_other, nz. }
  split; [|exact GE]. apply (minv_keep c gh m M gh [LFree a g]); cbn [set_m_gr m_vmids m_locks m_slots m_cpu m_att].
  - exact GE.
  - apply (mv_locks _ _ _ M).
  - reflexivity.
  - reflexivity.
  - apply (mv_att _ _ _ M).
  - intros b d [E|[]]. discriminate E.
  - intros b Sb _. cbn [m_gr]. apply upd_other. intros ->. fold G in Sb. congruence.
  - intros b r' [S1 M1]. cbn [m_gr set_m_gr] in S1, M1 |- *. assert (nb : b <> a) by (intros ->; rewrite upd_same in S1; congruence).
    rewrite upd_other in S1, M1 |- * by exact nb. split; [apply (mv_pend _ _ _ M b); split; assumption|auto].
Qed.

Lemma reach_state : forall rd x l w oa ns xn ipa, xres gh x rd ipa (XOk l w oa ns xn) -> gpt_ok (G (page_of oa)) ns = true ->
  (if ns then g_state (G (page_of oa)) = NS else g_state (G (page_of oa)) = DATA) /\ g_ref (G (page_of oa)) = 0 /\ exists f, g_mem (G (page_of oa)) = CW f.
Proof.
  intros rd x l w oa ns xn ipa H GP. unfold gpt_ok in GP. apply eqb_prop in GP. revert GP. inversion H; subst; intro GP.
  - match goal with D : dmap gh _ = Some _ |- _ => destruct (i_dmap _ _ _ _ I _ _ _ D) as (S1 & _) end.
    destruct (i_data _ _ _ _ I _ S1) as (S2 & S3 & _). auto.
  - symmetry in GP. apply gstate_eqb_eq in GP. destruct (i_ns _ _ _ _ I _ GP) as (S2 & S3). auto.
Qed.

Lemma same_refl : forall g a, same_rest m (set_m_gr m a g).
Proof. intros. repeat split; reflexivity. Qed.

Theorem minv_step : forall o m' rp, op_ok o -> step c h m o = RDone m' rp -> step_good o rp m'.
Proof.
  intros o m' rp OK ST. destruct o as [p k|p a ra en fi tm|p ev fi tm|p regs sp pc ps sys|p ipa rt|p ipa v|p ipa|p a f|a i v].
  - apply step_cmd; assumption.
  - apply step_enter; assumption.
  - apply step_exit; [apply OK|exact ST].
  - cbn [step] in ST. destruct (running_rec m p) as [[ru r]|] eqn:ER; [|discriminate]. destruct (el10_mode ps) eqn:Hm; [|discriminate].
    injection ST as <- <-. destruct (runs_rec _ _ _ ER) as (Ep & d & R & Rf & NR & Md & Rd & O & NN & _).
    destruct (keep_regs p ru r d (realm_regs r regs sp pc ps sys) Ep R Rf NR Rd NN) as [K1 K2]; try reflexivity.
    { unfold realm_mode. cbn [r_pstate realm_regs]. unfold el10_mode in Hm. unfold field. change (2 ^ 4) with 16. change (2 ^ 0) with 1. rewrite N.div_1_r. cbn [In]. cbv zeta in Hm. clear -Hm. lia. }
    eexists gh, _. split; [exact K1|]. split; [exact K2|]. repeat (split; [reflexivity|]). split; [apply same_refl|]. exists ru, r. auto.
  - cbn [step] in ST. destruct (running_rec m p) as [[ru r]|] eqn:ER; [|discriminate]. fold G in ST.
    destruct (rec_xlat G r ipa) as [|l w oa ns xn] eqn:EX; [discriminate|]. destruct (gpt_ok (G (page_of oa)) ns) eqn:GP; [|discriminate].
    destruct (runs_rec _ _ _ ER) as (Ep & d & R & Rf & NR & Md & Rd & O & NN & _).
    pose proof (xlat_cases c gh G V I r d ipa Rd O (mv_roots _ _ _ M _ _ Rd)) as XR. rewrite EX in XR.
    destruct (reach_state _ _ _ _ _ _ _ _ XR GP) as (S1 & S2 & f & S3). rewrite S3 in ST. injection ST as <- <-.
    destruct (keep_regs p ru r d (set_reg r rt (f (oa mod 4096 / 8))) Ep R Rf NR Rd NN eq_refl eq_refl Md) as [K1 K2].
    eexists gh, _. split; [exact K1|]. split; [exact K2|]. repeat (split; [reflexivity|]). split; [apply same_refl|].
    exists ru, r, d, l, w, oa, ns, xn, f. auto 10.
  - cbn [step] in ST. destruct (running_rec m p) as [[ru r]|] eqn:ER; [|discriminate]. fold G in ST.
    destruct (rec_xlat G r ipa) as [|l w oa ns xn] eqn:EX; [discriminate|]. destruct (gpt_ok (G (page_of oa)) ns) eqn:GP; [|discriminate].
    destruct (runs_rec _ _ _ ER) as (Ep & d & R & Rf & NR & Md & Rd & O & NN & _).
    pose proof (xlat_cases c gh G V I r d ipa Rd O (mv_roots _ _ _ M _ _ Rd)) as XR. rewrite EX in XR.
    destruct (reach_state _ _ _ _ _ _ _ _ XR GP) as (S1 & S2 & f & S3). rewrite S3, S2 in ST. injection ST as <- <-.
    destruct (keep_word (page_of oa) (mkG (g_state (G (page_of oa))) 0 (CW (upd f (oa mod 4096 / 8) v)))) as [K1 K2].
    + destruct ns; rewrite S1; discriminate.
    + cbn [g_state]. destruct ns; rewrite S1; discriminate.
    + destruct ns.
      * left. split; [apply (fr_ns _ _ _ _ I _ S1)|]. split; [left|].
        -- cbn [g_state g_ref g_mem]. split; [exact S1|]. split; [reflexivity|]. eexists. reflexivity.
        -- cbn [g_state]. intro X. contradiction.
      * right. split; [left; exact S1|]. eexists. rewrite S2. reflexivity.
    + eexists gh, _. split; [exact K1|]. split; [exact K2|]. repeat (split; [reflexivity|]). split; [apply same_refl|].
      exists ru, r, d, l, w, oa, ns, xn, f. auto 10.
  - cbn [step] in ST. destruct (running_rec m p) as [[ru r]|] eqn:ER; [|discriminate]. fold G in ST.
    destruct (rec_xlat G r ipa) as [|l w oa ns xn] eqn:EX; [discriminate|]. injection ST as <- <-.
    destruct (runs_rec _ _ _ ER) as (Ep & d & R & Rf & NR & Md & Rd & O & NN & _).
    pose proof (xlat_cases c gh G V I r d ipa Rd O (mv_roots _ _ _ M _ _ Rd)) as XR. rewrite EX in XR.
    exists gh, []. split; [|split; [apply gs_nil; reflexivity|]].
    + apply (minv_keep c gh m M gh []); cbn [m_gr m_vmids m_locks m_slots m_cpu m_att]; try reflexivity.
      * apply gs_nil; reflexivity.
      * apply (mv_locks _ _ _ M).
      * apply (mv_att _ _ _ M).
      * intros b d0 [].
      * intros b r' R'. split; [apply (mv_pend _ _ _ M b); exact R'|]. destruct R' as [R1 _]. auto.
    + repeat (split; [reflexivity|]). exists ru, r, d, l, w, oa, ns, xn. do 5 (split; [assumption|]). cbn [m_tlb].
      assert (Hl : (-1 <= l <= 3)%Z).
      { pose proof (inv_ctx _ _ _ _ I _ _ Rd) as X. pose proof (ctx_sl _ X).
        inversion XR; subst; match goal with LF : Leaf _ _ _ _ _ _ |- _ => destruct LF as (O1 & _) end;
          pose proof (t_level_ok _ _ _ _ _ _ _ (inv_own _ _ _ _ I _ _ _ _ _ O1 Rd)); lia. }
      rewrite arch_lsb_eq by exact Hl. fold (ms l). destruct O as (_ & _ & E1 & E2 & _). rewrite E1, E2.
      destruct (vttbr_fields c _ (inv_ctx _ _ _ _ I _ _ Rd) (mv_roots _ _ _ M _ _ Rd) (proj1 (proj2 (proj2 (inv_rd_ok _ _ _ _ I _ _ Rd))))) as (_ & B2).
      rewrite B2. reflexivity.
  - cbn [step] in ST. destruct (running_rec m p) as [[ru r]|] eqn:ER; [|discriminate]. destruct (existsb (N.eqb a) (r_aux r)) eqn:EX; [|discriminate].
    injection ST as <- <-. apply existsb_exists in EX. destruct EX as (y & Y1 & Y2). apply N.eqb_eq in Y2. subst y.
    destruct (runs_rec _ _ _ ER) as (Ep & d & R & Rf & NR & Md & Rd & O & NN & AX). apply AX in Y1 as Y3.
    destruct (i_auxo _ _ _ _ I _ _ Y3) as (S1 & _). destruct (i_aux _ _ _ _ I _ S1) as (S2 & _).
    assert (Eg : mkG (g_state (m_gr m a)) (g_ref (m_gr m a)) (CW f) = mkG REC_AUX 0 (CW f)) by (fold G; rewrite S1, S2; reflexivity).
    rewrite Eg. destruct (keep_word a (mkG REC_AUX 0 (CW f))) as [K1 K2].
    + rewrite S1. discriminate.
    + discriminate.
    + right. split; [right; exact S1|]. eexists. rewrite S1, S2. reflexivity.
    + eexists gh, _. split; [exact K1|]. split; [exact K2|]. repeat (split; [reflexivity|]). split; [apply same_refl|]. exists ru, r. auto.
  - cbn [step] in ST. fold G in ST. destruct (g_state (G a)) eqn:S1; try discriminate. destruct (g_mem (G a)) as [f| |] eqn:S3; try discriminate.
    injection ST as <- <-. destruct (i_ns _ _ _ _ I _ S1) as (S2 & _). rewrite S2.
    destruct (keep_word a (mkG NS 0 (CW (upd f i v)))) as [K1 K2].
    + rewrite S1. discriminate.
    + discriminate.
    + left. split; [apply (fr_ns _ _ _ _ I _ S1)|]. split; [left; cbn [g_state g_ref g_mem]; eauto|]. cbn [g_state]. intro X. contradiction.
    + eexists gh, _. split; [exact K1|]. split; [exact K2|]. repeat (split; [reflexivity|]). split; [apply same_refl|]. exists f. auto.
Qed.
End Step.

(* ------------------------------------------------------------------ *)
(** * No step goes wrong, but in the cases listed *)

(** The cases in which a step stops the monitor *)
Definition op_bad (c : cfg) (m : mstate) (o : op) : Prop :=
  match o with
  | OCmd _ k => cmd_bad c (m_gr m) k
  | OEnter _ a _ _ _ _ => f6_enter (m_gr m) a
  | OExit p ev _ _ => exists ru r, m_cpu m p = Some ru /\ is_rec (m_gr m) (ru_rec ru) r /\ ~ exit_ok ev r (ru_simd ru)
  | _ => False
  end.

Theorem step_safe : forall c h gh m o, cfg_ok c -> MInv c gh m -> op_ok o ->
  match step c h m o with RPanic => op_bad c m o | RDeadlock | RSmash => False | _ => True end.
Proof.
  intros c h gh m o C M OK. pose proof (mv_inv _ _ _ M) as I. set (G := m_gr m) in *. set (V := m_vmids m) in *.
  destruct o as [p k|p a ra en fi tm|p ev fi tm|p regs sp pc ps sys|p ipa rt|p ipa v|p ipa|p a f|a i v]; cbn [step op_bad]; fold G.
  - destruct (m_cpu m p) eqn:Ep; [exact Logic.I|].
    pose proof (wp_cmd c gh G V C I (m_locks m) (m_slots m p) (m_tlb m) (mv_locks _ _ _ M) (idle_slots _ _ _ M p Ep) k) as W.
    unfold wp, cpu_state in *. fold G V. destruct (run _ _); [exact Logic.I|exact W|exact W].
  - destruct (m_cpu m p) eqn:Ep; [exact Logic.I|].
    assert (PO : forall r, is_rec G a r -> pend_ok r) by (intros r R; apply (mv_pend _ _ _ M a r R)).
    pose proof (wp_rec_enter c gh G V I (m_locks m) (m_slots m p) (m_tlb m) (mv_locks _ _ _ M) (idle_slots _ _ _ M p Ep) h fi tm a ra en (m_att m a) PO) as W.
    unfold wp, cpu_state in *. fold G V. destruct (run _ _) as [[]| |]; [exact Logic.I|exact Logic.I|exact W|exact W].
  - destruct (m_cpu m p) as [ru|] eqn:Ep; [|exact Logic.I].
    destruct (runs _ _ _ M p ru Ep) as (r & d & R & Rf & NR & Md & Rd & O & NN & _).
    assert (BS0 : forall z, m_slots m p z = busy z) by (intro z; rewrite (mv_slots _ _ _ M), Ep; reflexivity).
    pose proof (wp_run_exit c gh G V I (m_locks m) (m_slots m p) (m_tlb m) (mv_locks _ _ _ M) BS0 h ev fi tm (ru_rec ru) r d (ru_exit ru) (m_att m (ru_rec ru)) (ru_simd ru)
      R Rf Rd O NR Md (proj1 OK) (mv_att _ _ _ M _)) as W.
    unfold wp, cpu_state in *. fold G V. destruct (run _ _) as [[[[] ?] ?] ?| |]; [exact Logic.I|exact Logic.I|eauto|exact W].
  - destruct (running_rec m p) as [[ru r]|]; [|exact Logic.I]. destruct (el10_mode ps); exact Logic.I.
  - destruct (running_rec m p) as [[ru r]|] eqn:ER; [|exact Logic.I].
    destruct (runs_rec _ _ _ M _ _ _ ER) as (Ep & d & R & Rf & NR & Md & Rd & O & NN & _).
    pose proof (xlat_cases c gh G V I r d ipa Rd O (mv_roots _ _ _ M _ _ Rd)) as XR.
    destruct (rec_xlat G r ipa) as [|l w oa ns xn]; [exact Logic.I|]. destruct (gpt_ok (G (page_of oa)) ns) eqn:GP; [|exact Logic.I].
    destruct (reach_state _ _ _ M _ _ _ _ _ _ _ _ XR GP) as (_ & _ & f & S3). fold G in S3. rewrite S3. exact Logic.I.
  - destruct (running_rec m p) as [[ru r]|] eqn:ER; [|exact Logic.I].
    destruct (runs_rec _ _ _ M _ _ _ ER) as (Ep & d & R & Rf & NR & Md & Rd & O & NN & _).
    pose proof (xlat_cases c gh G V I r d ipa Rd O (mv_roots _ _ _ M _ _ Rd)) as XR.
    destruct (rec_xlat G r ipa) as [|l w oa ns xn]; [exact Logic.I|]. destruct (gpt_ok (G (page_of oa)) ns) eqn:GP; [|exact Logic.I].
    destruct (reach_state _ _ _ M _ _ _ _ _ _ _ _ XR GP) as (_ & _ & f & S3). fold G in S3. rewrite S3. exact Logic.I.
  - destruct (running_rec m p) as [[ru r]|]; [|exact Logic.I]. destruct (rec_xlat G r ipa); exact Logic.I.
  - destruct (running_rec m p) as [[ru r]|]; [|exact Logic.I]. destruct (existsb _ _); exact Logic.I.
  - destruct (g_state (G a)); try exact Logic.I. destruct (g_mem (G a)); exact Logic.I.
Qed.

(* ------------------------------------------------------------------ *)
(** * The first state *)

Definition gh0 : ghost := mkGh (fun _ => None) (fun _ _ => EUnEmpty) (fun _ => None) (fun _ => []) (fun _ => None).

Lemma minv_init : forall c mem, MInv c gh0 (init mem).
Proof.
  intros c mem. constructor; cbn [init m_locks m_slots m_gr m_vmids m_tlb m_cpu m_att].
  - constructor; unfold is_rd, is_rec; cbn [g_state g_ref g_mem gh0 own ent dmap recs auxo]; intros;
      repeat match goal with H : _ /\ _ |- _ => destruct H end; try discriminate; try contradiction; try exact Logic.I.
    + split; [reflexivity|]. eexists. reflexivity.
    + split; [constructor|]. apply N.le_0_l.
  - intro. reflexivity.
  - reflexivity.
  - unfold on. cbn. discriminate.
  - unfold on. cbn. discriminate.
  - cbn. discriminate.
  - intros a r [X _]. discriminate X.
  - intro a. left. reflexivity.
  - intros a d [X _]. discriminate X.
Qed.

Lemma steps_minv : forall c h m l m', cfg_ok c -> steps c h m l m' -> Forall op_ok (map fst l) -> forall gh, MInv c gh m -> exists gh', MInv c gh' m'.
Proof.
  intros c h m l m' C H. induction H as [m|m o r m1 l m' S H IH]; intros F gh M; [eauto|].
  inversion F as [|? ? F1 F2]; subst. destruct (minv_step c h gh m C M o m1 r F1 S) as (gh1 & labs & M1 & _). apply (IH F2 gh1 M1).
Qed.
