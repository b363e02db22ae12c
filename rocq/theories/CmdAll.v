(** The effect of every command of the host *)
From Coq Require Import NArith ZArith List Bool Lia ZifyBool ZifyN.
From Verif Require Import Bits S2tte S2tteFacts State Granule Wp RecFields Measure RmiGranule RmiRtt RmiRealm Psci RmiRec Gic Esr Rsi RecRun
  Arch Mmu Machine Inv InvTree InvStep InvStep2 InvStep3 Effects CmdLib CmdGranule CmdRtt CmdFold CmdRtt2 CmdNs CmdData CmdRipas
  CmdList CmdRealm CmdRec.
Import ListNotations.
Local Open Scope N_scope.

Section Eff.
Variables (c : cfg) (gh : ghost) (G : N -> granule) (V : N -> bool).

Definition cmd_eff (k : cmd) (r : res) (gh' : ghost) (labs : list label) (inv : list (N * N * N)) : Prop :=
  let nothing := labs = [] /\ inv = [] /\ gh' = gh in
  let cres (F P : Prop) := (x0 r <> RMI_SUCCESS /\ nothing /\ F) \/ (x0 r = RMI_SUCCESS /\ P) in
  match k with
  | KUnknown => nothing /\ r = res0 SMC_UNKNOWN
  | KVersion q => nothing /\ r = smc_version q
  | KFeatures i => nothing /\ r = smc_read_feature_register c i
  | KPsciComplete calling target status =>
      inv = [] /\
      ((x0 r = RMI_ERROR_INPUT /\ nothing) \/
       (exists rc rt rc' rt', calling <> target /\ is_rec G calling rc /\ is_rec G target rt /\ g_ref (G calling) = 0 /\
          psci_complete_request rc rt (negb (g_ref (G target) =? 0)) status = Some (x0 r, rc', rt') /\
          labs = [LRec target rt rt' (g_ref (G target)); LRec calling rc rc' 0]))
  | KGranuleDelegate el3 a => cres
      (x0 r = RMI_ERROR_INPUT /\ ~ (el3 = true /\ find_granule c a = true /\ g_state (G a) = NS))
      (labs = [LFree a (mkG DELEGATED 0 czero)] /\ inv = [] /\ g_state (G a) = NS /\ el3 = true /\ find_granule c a = true)
  | KGranuleUndelegate el3 a => cres
      (x0 r = RMI_ERROR_INPUT /\ g_state (G a) <> DELEGATED)
      (labs = [LFree a (mkG NS 0 czero)] /\ inv = [] /\ g_state (G a) = DELEGATED)
  | KDataCreate ok rd data addr src flags => cres
      ((x0 r = RMI_ERROR_INPUT /\ ~ (data_args G rd data addr /\ (flags = RMI_NO_MEASURE_CONTENT \/ flags = RMI_MEASURE_CONTENT) /\
          find_granule c src = true /\ g_state (G src) = NS /\ host_page G src ok <> None)) \/
       (x0 r = RMI_ERROR_REALM /\ exists d, is_rd G rd d /\ rd_state d <> REALM_NEW) \/ walk_fail gh G rd addr 3 un_e (x0 r))
      (inv = [] /\ exists d e f, is_rd G rd d /\ rd_state d = REALM_NEW /\
         addr < 2 ^ (ipa_bits (rd_ctx d) - 1) /\ addr mod 4096 = 0 /\ un_e e = true /\ host_page G src ok = Some f /\
         (flags = RMI_NO_MEASURE_CONTENT \/ flags = RMI_MEASURE_CONTENT) /\ g_state (G src) = NS /\ find_granule c src = true /\
         labs = [LRd rd d (set_meas d RIM_MEASUREMENT_SLOT
                   (measurement_data_granule_measure c (rd_meas d RIM_MEASUREMENT_SLOT) (rd_algorithm d) f addr flags));
                 LAssign rd (addr / 4096) e (EAsRam data) data f])
  | KDataCreateUnknown rd data addr => cres
      ((x0 r = RMI_ERROR_INPUT /\ ~ data_args G rd data addr) \/ walk_fail gh G rd addr 3 un_e (x0 r))
      (inv = [] /\ exists d e, is_rd G rd d /\
         addr < 2 ^ (ipa_bits (rd_ctx d) - 1) /\ addr mod 4096 = 0 /\ un_e e = true /\
         labs = [LAssign rd (addr / 4096) e (assign_e e data) data (fun _ => 0)])
  | KDataDestroy rd addr => cres
      ((x0 r = RMI_ERROR_INPUT /\ ~ exists d, is_rd G rd d /\ addr < 2 ^ (ipa_bits (rd_ctx d) - 1) /\ addr mod 4096 = 0) \/
       walk_fail_top gh G rd addr 3 asg_e (x0 r) (x2 r))
      (exists d e wi, is_rd G rd d /\
         addr < 2 ^ (ipa_bits (rd_ctx d) - 1) /\ addr mod 4096 = 0 /\ asg e = Some (x1 r) /\
         labs = [LRelease rd (addr / 4096) e (unassign_e e) (x1 r)] /\
         walk_res gh (rd_ctx d) rd addr 3 wi /\ w_level wi = 3%Z /\
         top_ok (ent gh' (w_llt wi)) 3 (w_index wi) addr (x2 r) /\
         inv = match e with EAsRam _ => [(vmid (rd_ctx d), addr, 4096)] | _ => [] end)
  | KRealmActivate rd => cres
      ((x0 r = RMI_ERROR_INPUT /\ ~ exists d, is_rd G rd d) \/ (x0 r = RMI_ERROR_REALM /\ exists d, is_rd G rd d /\ rd_state d <> REALM_NEW))
      (inv = [] /\ exists d, is_rd G rd d /\ rd_state d = REALM_NEW /\
         labs = [LRd rd d (set_rd_state d REALM_ACTIVE)])
  | KRealmCreate params rd pa => cres
      (x0 r = RMI_ERROR_INPUT /\ ~ create_args c G V params rd pa)
      (inv = [] /\ exists p, params = Some p /\ g_state (G pa) = NS /\
         realm_params_valid c p = true /\ p_vmid p < vmid_count c /\ V (p_vmid p) = false /\
         find_granule c pa = true /\ g_state (G rd) = DELEGATED /\
         (forall k, k < p_rtt_num_start p -> g_state (G (p_rtt_base p + k * 4096)) = DELEGATED /\ p_rtt_base p + k * 4096 <> rd) /\
         labs = [LRealmCreate rd (created_rd c p)])
  | KRealmDestroy rd => cres
      ((x0 r = RMI_ERROR_INPUT /\ ~ exists d, is_rd G rd d) \/ (x0 r = RMI_ERROR_REALM /\ exists d, is_rd G rd d /\
         (g_ref (G rd) <> 0 \/ exists k, k < num_root_rtts (rd_ctx d) /\ g_ref (G (g_rtt (rd_ctx d) + k * 4096)) <> 0)))
      (inv = [] /\ exists d, is_rd G rd d /\ g_ref (G rd) = 0 /\
         (forall k, k < num_root_rtts (rd_ctx d) -> g_ref (G (g_rtt (rd_ctx d) + k * 4096)) = 0) /\
         labs = [LRealmDestroy rd d])
  | KRecCreate params rd rec pa => cres
      (x0 r = RMI_ERROR_INPUT \/
       (x0 r = RMI_ERROR_REALM /\ exists d, is_rd G rd d /\ (rd_state d <> REALM_NEW \/ g_ref (G rd) = REFCOUNT_MAX)))
      (inv = [] /\ exists p d rc, params = Some p /\ is_rd G rd d /\ rd_state d = REALM_NEW /\
         find_granule c pa = true /\ g_state (G pa) = NS /\
         rec_mpidr_is_valid (rp_mpidr p) = true /\ rec_mpidr_to_idx (rp_mpidr p) = rd_rec_count d /\
         rp_num_aux p mod 2 ^ 32 = rd_num_rec_aux d /\
         rc = new_rec c rec_zero d rd p (rd_rec_count d) (aux_list p (rp_num_aux p mod 2 ^ 32)) /\
         labs = [LRecCreate rd rec d (created_rec_rd c d p (r_runnable rc)) rc])
  | KRecDestroy rec => cres
      ((x0 r = RMI_ERROR_INPUT /\ g_state (G rec) <> REC) \/ (x0 r = RMI_ERROR_REC /\ g_state (G rec) = REC /\ g_ref (G rec) <> 0))
      (inv = [] /\ exists rc, is_rec G rec rc /\ g_ref (G rec) = 0 /\
         labs = [LRecDestroy (r_g_rd rc) rec rc])
  | KRttCreate rd rtt addr ulevel => let level := sgn64 ulevel in cres
      ((x0 r = RMI_ERROR_INPUT /\ ~ rtt_create_args G rd rtt addr level) \/
       walk_fail gh G rd addr (level - 1) (fun e => negb (is_table_e e)) (x0 r))
      (exists d e, is_rd G rd d /\ (s2_sl (rd_ctx d) < level <= 3)%Z /\
         addr < 2 ^ ipa_bits (rd_ctx d) /\ addr mod ms (level - 1) = 0 /\
         labs = [LAttach rd (level - 1) (addr / ms (level - 1)) e rtt] /\
         inv = if hw_valid e then [(vmid (rd_ctx d), addr, 4096)] else [])
  | KRttDestroy rd addr ulevel => let level := sgn64 ulevel in cres
      (destroy_fail gh G rd addr level (x0 r) (x2 r))
      (exists d e' wi, is_rd G rd d /\ (s2_sl (rd_ctx d) < level <= 3)%Z /\
         addr < 2 ^ ipa_bits (rd_ctx d) /\ addr mod ms (level - 1) = 0 /\
         labs = [LDestroy rd (level - 1) (addr / ms (level - 1)) e' (x1 r)] /\
         walk_res gh (rd_ctx d) rd addr (level - 1) wi /\ w_level wi = (level - 1)%Z /\
         top_ok (ent gh' (w_llt wi)) (level - 1) (w_index wi) addr (x2 r) /\
         inv = [(vmid (rd_ctx d), addr, if addr <? 2 ^ (ipa_bits (rd_ctx d) - 1) then 4096 else ms 2)])
  | KRttMapUnprotected rd addr ulevel h => let level := sgn64 ulevel in cres
      ((x0 r = RMI_ERROR_INPUT /\ ~ ns_args G rd addr level (fun d => host_ns_s2tte_is_valid (enable_lpa2 (rd_ctx d)) h level = true)) \/
       walk_fail gh G rd addr level unns_e (x0 r))
      (inv = [] /\ exists d, is_rd G rd d /\
         (1 <= level <= 3)%Z /\ (s2_sl (rd_ctx d) <= level)%Z /\ 2 ^ (ipa_bits (rd_ctx d) - 1) <= addr < 2 ^ ipa_bits (rd_ctx d) /\
         addr mod ms level = 0 /\ host_ns_s2tte_is_valid (enable_lpa2 (rd_ctx d)) h level = true /\
         labs = [LEntry rd level (addr / ms level) EUnNs
                   (EAsNs (N.land h S2TTE_NS_ATTR_MASK) (s2tte_to_pa h level (enable_lpa2 (rd_ctx d))))])
  | KRttReadEntry rd addr ulevel => let level := sgn64 ulevel in cres
      (x0 r = RMI_ERROR_INPUT /\ ~ exists d, is_rd G rd d /\ (s2_sl (rd_ctx d) <= level <= 3)%Z /\
         addr < 2 ^ ipa_bits (rd_ctx d) /\ addr mod ms level = 0)
      (labs = [] /\ inv = [] /\ gh' = gh /\ exists d wi, is_rd G rd d /\
         (s2_sl (rd_ctx d) <= level <= 3)%Z /\ addr < 2 ^ ipa_bits (rd_ctx d) /\ addr mod ms level = 0 /\
         walk_res gh (rd_ctx d) rd addr level wi /\ x1 r = of_long (w_level wi) /\
         (x2 r, x3 r, x4 r) = read_spec (enable_lpa2 (rd_ctx d)) (ent gh (w_llt wi) (w_index wi)))
  | KRttUnmapUnprotected rd addr ulevel => let level := sgn64 ulevel in cres
      ((x0 r = RMI_ERROR_INPUT /\ ~ ns_args G rd addr level (fun _ => True)) \/ walk_fail_top gh G rd addr level asns_e (x0 r) (x1 r))
      (exists d attrs pa wi, is_rd G rd d /\
         (1 <= level <= 3)%Z /\ (s2_sl (rd_ctx d) <= level)%Z /\ 2 ^ (ipa_bits (rd_ctx d) - 1) <= addr < 2 ^ ipa_bits (rd_ctx d) /\
         addr mod ms level = 0 /\
         labs = [LEntry rd level (addr / ms level) (EAsNs attrs pa) EUnNs] /\
         walk_res gh (rd_ctx d) rd addr level wi /\ w_level wi = level /\
         top_ok (ent gh' (w_llt wi)) level (w_index wi) addr (x1 r) /\
         inv = [(vmid (rd_ctx d), addr, 4096)])
  | KRttFold rd addr ulevel => let level := sgn64 ulevel in cres
      (x0 r = RMI_ERROR_INPUT \/ walk_fail gh G rd addr (level - 1) any_e (x0 r) \/ (x0 r) = pack_return_code RMI_ERROR_RTT level)
      (exists d e', is_rd G rd d /\ (s2_sl (rd_ctx d) < level <= 3)%Z /\
         addr < 2 ^ ipa_bits (rd_ctx d) /\ addr mod ms (level - 1) = 0 /\
         labs = [LFold rd (level - 1) (addr / ms (level - 1)) e' (x1 r)] /\
         inv = [(vmid (rd_ctx d), addr, if hw_valid e' then ms 2 else 4096)])
  | KRecAuxCount rd => cres
      (x0 r = RMI_ERROR_INPUT /\ ~ exists d, is_rd G rd d)
      (inv = [] /\ labs = [] /\ exists d, is_rd G rd d /\ x1 r = rd_num_rec_aux d)
  | KRttInitRipas rd base top => cres
      (x0 r = RMI_ERROR_INPUT \/ (x0 r = RMI_ERROR_REALM /\ exists d, is_rd G rd d /\ rd_state d <> REALM_NEW) \/
       walk_fail gh G rd base 3 any_e (x0 r))
      (inv = [] /\ exists d wi m, is_rd G rd d /\ rd_state d = REALM_NEW /\
         base < top /\ base mod 4096 = 0 /\ top mod 4096 = 0 /\ top <= 2 ^ (ipa_bits (rd_ctx d) - 1) /\
         walk_res gh (rd_ctx d) rd base 3 wi /\
         ripas_range (ent gh (w_llt wi)) init_e (w_level wi) (w_index wi) base top (x1 r) m /\
         labs = chg rd (w_level wi) init_u (ent gh (w_llt wi)) (base / ms (w_level wi)) (w_index wi) m ++
                [LRd rd d (set_meas d RIM_MEASUREMENT_SLOT
                   (init_rim c (rd_algorithm d) (ms (w_level wi)) m base (rd_meas d RIM_MEASUREMENT_SLOT)))])
  | KRttSetRipas rd rec base top => cres
      (x0 r = RMI_ERROR_INPUT \/ x0 r = RMI_ERROR_REC \/ walk_fail gh G rd base 3 any_e (x0 r))
      (exists d rc wi m, let q := r_set_ripas rc in
         is_rd G rd d /\ is_rec G rec rc /\ r_g_rd rc = rd /\ g_ref (G rec) = 0 /\
         base = sr_addr q /\ base < top /\ top <= sr_top q /\
         walk_res gh (rd_ctx d) rd base 3 wi /\
         ripas_range (ent gh (w_llt wi)) (set_e (sr_ripas q) (sr_change_destroyed q)) (w_level wi) (w_index wi) base top (x1 r) m /\
         labs = chg rd (w_level wi) (set_u (sr_ripas q)) (ent gh (w_llt wi)) (base / ms (w_level wi)) (w_index wi) m ++
                [LRec rec rc (set_req rc (mkReq (sr_base q) (sr_top q) (x1 r) (sr_ripas q) (sr_change_destroyed q) (sr_response q))) 0] /\
         inv = set_inv (vmid (rd_ctx d)) (sr_ripas q) (ms (w_level wi)) (ent gh (w_llt wi)) m (w_index wi) base)
  end.

(** The arguments for which a command stops the monitor *)
Definition cmd_bad (k : cmd) : Prop :=
  match k with
  | KGranuleUndelegate el3 _ => el3 = false
  | KRecCreate params _ _ _ => rec_create_bad c G params
  | KRttMapUnprotected rd _ ulevel _ | KRttUnmapUnprotected rd _ ulevel => ns_bad G rd (sgn64 ulevel)
  | KPsciComplete calling target _ => psci_bad G calling target
  | _ => False
  end.

Definition cmd_done (T : list tlbe) (k : cmd) (r : res) (s' : state) : Prop :=
  quiet s' /\ exists labs gh' inv, geffs c gh G V labs gh' (s_gr s') (s_vmids s') /\ s_tlb s' = invals inv T /\ cmd_eff k r gh' labs inv.

Hypothesis C : cfg_ok c.
Hypothesis I : Inv c gh G V.
Variables (L S : N -> bool) (T : list tlbe).
Hypothesis HL : free L.
Hypothesis HS : free S.

Lemma done_of : forall (k : cmd) (r : res) (s' : state) (F : Prop) (P : ghost -> list label -> list (N * N * N) -> Prop),
  cmd_post c gh G V T (x0 r) F P s' ->
  (forall gh' labs inv, ((x0 r <> RMI_SUCCESS /\ (labs = [] /\ inv = [] /\ gh' = gh) /\ F) \/ (x0 r = RMI_SUCCESS /\ P gh' labs inv)) ->
     cmd_eff k r gh' labs inv) ->
  cmd_done T k r s'.
Proof.
  intros k r s' F P (Q & H1 & H2) K. split; [exact Q|]. destruct (N.eq_dec (x0 r) RMI_SUCCESS) as [E|E].
  - destruct (H2 E) as (labs & gh' & inv & GE & T1 & HP). exists labs, gh', inv. split; [exact GE|]. split; [exact T1|]. apply K. right. auto.
  - destruct (H1 E) as ((GE & VE & T1) & HF). exists [], gh, []. split; [apply gs_nil; assumption|]. split; [exact T1|]. apply K. left. auto 8.
Qed.

Lemma wp_just : forall (E : Prop) (p : prog N) s (Q : res -> state -> Prop), wp E p s (fun r s' => Q (res0 r) s') -> wp E (just p) s Q.
Proof. intros E p s Q H. unfold just. apply wp_bind. eapply wp_conseq; [exact H|auto|]. intros r s' K. apply wp_ret. exact K. Qed.

Lemma same_done : forall k r, (forall labs gh' inv, labs = [] /\ inv = [] /\ gh' = gh -> cmd_eff k r gh' labs inv) ->
  cmd_done T k r (mkS L S G V T).
Proof.
  intros k r K. split; [split; assumption|]. exists [], gh, []. split; [apply gs_nil; reflexivity|]. split; [reflexivity|]. apply K. auto.
Qed.

Lemma wp_cmd : forall k, wp (cmd_bad k) (cmd_prog c G k) (mkS L S G V T) (cmd_done T k).
Proof.
  intro k.
  assert (J : forall (E : Prop) (p : prog N) (F : N -> Prop) (P : N -> ghost -> list label -> list (N * N * N) -> Prop),
    wp E p (mkS L S G V T) (fun r s' => cmd_post c gh G V T r (F r) (P r) s') ->
    (forall r gh' labs inv, ((r <> RMI_SUCCESS /\ (labs = [] /\ inv = [] /\ gh' = gh) /\ F r) \/ (r = RMI_SUCCESS /\ P r gh' labs inv)) ->
     cmd_eff k (res0 r) gh' labs inv) -> wp E (just p) (mkS L S G V T) (cmd_done T k)).
  { intros E p F P H K. apply wp_just. eapply wp_conseq; [exact H|auto|]. intros r s' HP. eapply done_of; [exact HP|]. apply K. }
  assert (R : forall (E : Prop) (p : prog res) (F : res -> Prop) (P : res -> ghost -> list label -> list (N * N * N) -> Prop),
    wp E p (mkS L S G V T) (fun r s' => cmd_post c gh G V T (x0 r) (F r) (P r) s') ->
    (forall r gh' labs inv, ((x0 r <> RMI_SUCCESS /\ (labs = [] /\ inv = [] /\ gh' = gh) /\ F r) \/ (x0 r = RMI_SUCCESS /\ P r gh' labs inv)) ->
     cmd_eff k r gh' labs inv) -> wp E p (mkS L S G V T) (cmd_done T k)).
  { intros E p F P H K. eapply wp_conseq; [exact H|auto|]. intros r s' HP. eapply done_of; [exact HP|]. apply K. }
  destruct k; cbn [cmd_prog cmd_bad].
  - apply wp_ret, same_done. cbn. auto.
  - apply wp_ret, same_done. cbn. auto.
  - apply wp_ret, same_done. cbn. auto.
  - eapply J; [first [apply (wp_granule_delegate _ _ _ _ C I _ _ _ HL HS) | apply (wp_granule_delegate _ _ _ _ I _ _ _ HL HS)]|]. cbv beta. intros r gh' labs inv K. exact K.
  - eapply J; [first [apply (wp_granule_undelegate _ _ _ _ C I _ _ _ HL HS) | apply (wp_granule_undelegate _ _ _ _ I _ _ _ HL HS)]|]. cbv beta. intros r gh' labs inv K. exact K.
  - eapply J; [first [apply (wp_data_create _ _ _ _ C I _ _ _ HL HS) | apply (wp_data_create _ _ _ _ I _ _ _ HL HS)]|]. cbv beta. intros r gh' labs inv K. exact K.
  - eapply J; [first [apply (wp_data_create_unknown _ _ _ _ C I _ _ _ HL HS) | apply (wp_data_create_unknown _ _ _ _ I _ _ _ HL HS)]|]. cbv beta. intros r gh' labs inv K. exact K.
  - eapply R; [first [apply (wp_data_destroy _ _ _ _ C I _ _ _ HL HS) | apply (wp_data_destroy _ _ _ _ I _ _ _ HL HS)]|]. cbv beta. intros r gh' labs inv K. exact K.
  - eapply J; [first [apply (wp_realm_activate _ _ _ _ C I _ _ _ HL HS) | apply (wp_realm_activate _ _ _ _ I _ _ _ HL HS)]|]. cbv beta. intros r gh' labs inv K. exact K.
  - eapply J; [first [apply (wp_realm_create _ _ _ _ C I _ _ _ HL HS) | apply (wp_realm_create _ _ _ _ I _ _ _ HL HS)]|]. cbv beta. intros r gh' labs inv K. exact K.
  - eapply J; [first [apply (wp_realm_destroy _ _ _ _ C I _ _ _ HL HS) | apply (wp_realm_destroy _ _ _ _ I _ _ _ HL HS)]|]. cbv beta. intros r gh' labs inv K. exact K.
  - eapply J; [first [apply (wp_rec_create _ _ _ _ C I _ _ _ HL HS) | apply (wp_rec_create _ _ _ _ I _ _ _ HL HS)]|]. cbv beta. intros r gh' labs inv K. exact K.
  - eapply J; [first [apply (wp_rec_destroy _ _ _ _ C I _ _ _ HL HS) | apply (wp_rec_destroy _ _ _ _ I _ _ _ HL HS)]|]. cbv beta. intros r gh' labs inv K. exact K.
  - eapply J; [first [apply (wp_rtt_create _ _ _ _ C I _ _ _ HL HS) | apply (wp_rtt_create _ _ _ _ I _ _ _ HL HS)]|]. cbv beta. intros r gh' labs inv K. exact K.
  - eapply R; [first [apply (wp_rtt_destroy _ _ _ _ C I _ _ _ HL HS) | apply (wp_rtt_destroy _ _ _ _ I _ _ _ HL HS)]|]. cbv beta. intros r gh' labs inv K. exact K.
  - eapply J; [first [apply (wp_rtt_map_unprotected _ _ _ _ C I _ _ _ HL HS) | apply (wp_rtt_map_unprotected _ _ _ _ I _ _ _ HL HS)]|]. cbv beta. intros r gh' labs inv K. exact K.
  - eapply R; [first [apply (wp_rtt_read_entry _ _ _ _ C I _ _ _ HL HS) | apply (wp_rtt_read_entry _ _ _ _ I _ _ _ HL HS)]|]. cbv beta. intros r gh' labs inv K. exact K.
  - eapply R; [first [apply (wp_rtt_unmap_unprotected _ _ _ _ C I _ _ _ HL HS) | apply (wp_rtt_unmap_unprotected _ _ _ _ I _ _ _ HL HS)]|]. cbv beta. intros r gh' labs inv K. exact K.
  - apply wp_just. eapply wp_conseq; [first [apply (wp_psci_complete _ _ _ _ C I _ _ _ HL HS) | apply (wp_psci_complete _ _ _ _ I _ _ _ HL HS)]|auto|].
    intros r s' (Q & T1 & [(E & GE & VE)|(rc & rt & rc' & rt' & gh' & H1 & H2 & H3 & H4 & H5 & GE)]).
    + split; [exact Q|]. exists [], gh, []. split; [apply gs_nil; assumption|]. split; [exact T1|]. split; [reflexivity|]. left. auto.
    + split; [exact Q|]. eexists _, gh', []. split; [exact GE|]. split; [exact T1|]. split; [reflexivity|]. right. exists rc, rt, rc', rt'. auto 8.
  - eapply R; [first [apply (wp_rtt_fold _ _ _ _ C I _ _ _ HL HS) | apply (wp_rtt_fold _ _ _ _ I _ _ _ HL HS)]|]. cbv beta. intros r gh' labs inv K. exact K.
  - eapply R; [first [apply (wp_rec_aux_count _ _ _ _ C I _ _ _ HL HS) | apply (wp_rec_aux_count _ _ _ _ I _ _ _ HL HS)]|]. cbv beta. intros r gh' labs inv K. exact K.
  - eapply R; [first [apply (wp_rtt_init_ripas _ _ _ _ C I _ _ _ HL HS) | apply (wp_rtt_init_ripas _ _ _ _ I _ _ _ HL HS)]|]. cbv beta. intros r gh' labs inv K. exact K.
  - eapply R; [first [apply (wp_rtt_set_ripas _ _ _ _ C I _ _ _ HL HS) | apply (wp_rtt_set_ripas _ _ _ _ I _ _ _ HL HS)]|]. cbv beta. intros r gh' labs inv K. exact K.
Qed.
End Eff.
