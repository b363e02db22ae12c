(** Effect of the RSI and PSCI calls of a realm *)
From Coq Require Import NArith ZArith List Bool Lia ZifyBool ZifyN.
From Verif Require Import Bits S2tte S2tteFacts State Granule Wp RecFields Measure RmiGranule RmiRtt RmiRealm Psci RmiRec
  Gic Esr Rsi RecRun Inv InvTree InvStep InvStep2 InvStep3 Effects CmdLib CmdRtt CmdFold CmdRtt2 CmdNs CmdData CmdRipas CmdRsi.
Import ListNotations.
Local Open Scope N_scope.

(** The token buffer is never read past its end *)
Definition att_ok (a : att) : Prop := a_copied a = 0 \/ a_copied a + a_len a <= REC_ATTEST_TOKEN_BUF_SIZE.
(** Slots a service of a realm uses; those of the REC are taken meanwhile *)
Definition slots_ok (S : N -> bool) : Prop :=
  S SLOT_NS = false /\ S SLOT_RD = false /\ S SLOT_RTT = false /\ S SLOT_RSI_CALL = false.

(** The page of the realm the monitor may write: it is assigned and RIPAS is RAM *)
Definition ram_page (gh : ghost) (rd p g : N) : Prop :=
  exists l b pa, Leaf gh rd p l b (EAsRam pa) /\ g = pa + p mod pg l * 4096 /\ dmap gh g = Some (rd, p).

(** What the calls do, by cases.  [d] is the descriptor of the realm, [env] what
    the attestation library does. *)
Section Out.
Variables (c : cfg) (env : att_env) (gh : ghost) (G : N -> granule) (d : rdesc) (v : vcpu).
Let r := v_rec v.
Let rd := r_g_rd r.
Let par := 2 ^ (ipa_bits (rd_ctx d) - 1).

(** The function identifier; PSCI looks at it with the SVE hint *)
Definition rsi_fid : N := N.ldiff (u32 (r_regs r 0)) SMC_SVE_HINT.
Definition psci_fid : N := u32 (r_regs r 0).

(** A stage 2 fault at the address in x1; the page has no memory of RIPAS RAM *)
Definition rsi_faults (o : vcpu * rsi) (v0 : vcpu) (ipa : N) : Prop :=
  exists l b e, Leaf gh rd (ipa / 4096) l b e /\ (forall pa, e <> EAsRam pa) /\ (s2_sl (rd_ctx d) <= l <= 3)%Z /\
    ipa < 2 ^ (ipa_bits (rd_ctx d) - 1) /\
    ((e_ripas e = EMPTY /\ o = (v0, ret_realm (rx0 r RSI_ERROR_INPUT))) \/
     (e_ripas e <> EMPTY /\ o = (v0, s2_fault (rx0 r 0) l))).
(** The page has RIPAS EMPTY *)
Definition rsi_empty (ipa : N) : Prop := ipa < par /\ exists l b e, Leaf gh rd (ipa / 4096) l b e /\ e_ripas e = EMPTY.

(** Arguments that are rejected *)
Definition chunk_bad : Prop :=
  r_regs r 1 mod 4096 <> 0 \/ 4096 <= r_regs r 2 \/ 4096 < wrap64 (r_regs r 2 + r_regs r 3) \/
  wrap64 (r_regs r 2 + r_regs r 3) < r_regs r 2 \/ par <= r_regs r 1.
Definition range_bad : Prop :=
  r_regs r 1 mod 4096 <> 0 \/ r_regs r 2 mod 4096 <> 0 \/ r_regs r 2 <= r_regs r 1 \/ par < r_regs r 2.
Definition host_bad : Prop :=
  r_regs r 1 mod 256 <> 0 \/ r_regs r 1 / 4096 <> wrap64 (r_regs r 1 + 255) / 4096 \/ par <= r_regs r 1.
Definition cpu_on_fid : Prop := psci_fid = SMC32_PSCI_CPU_ON \/ psci_fid = SMC64_PSCI_CPU_ON.
Definition affinity_fid : Prop := psci_fid = SMC32_PSCI_AFFINITY_INFO \/ psci_fid = SMC64_PSCI_AFFINITY_INFO.

(** Calls that only return a result *)
Inductive rsi_plain : res -> Prop :=
| rp_smccc : rsi_fid = SMCCC_VERSION -> rsi_plain (rx0 r SMCCC_VERSION_NUMBER)
| rp_psci_version : psci_fid = SMC32_PSCI_VERSION -> rsi_plain (rx0 r 65537)
| rp_on_address : cpu_on_fid -> par <= r_regs r 2 -> rsi_plain (rx0 r PSCI_RETURN_INVALID_ADDRESS)
| rp_on_params : cpu_on_fid -> r_regs r 2 < par -> rd_rec_count d <= mpidr_to_rec_idx (r_regs r 1) -> rsi_plain (rx0 r PSCI_RETURN_INVALID_PARAMS)
| rp_on_already : cpu_on_fid -> r_regs r 2 < par -> mpidr_to_rec_idx (r_regs r 1) < rd_rec_count d ->
    mpidr_to_rec_idx (r_regs r 1) = r_idx r -> rsi_plain (rx0 r PSCI_RETURN_ALREADY_ON)
| rp_aff_params : affinity_fid -> r_regs r 2 <> 0 \/ rd_rec_count d <= mpidr_to_rec_idx (r_regs r 1) -> rsi_plain (rx0 r PSCI_RETURN_INVALID_PARAMS)
| rp_aff_on : affinity_fid -> r_regs r 2 = 0 -> mpidr_to_rec_idx (r_regs r 1) < rd_rec_count d ->
    mpidr_to_rec_idx (r_regs r 1) = r_idx r -> rsi_plain (rx0 r PSCI_AFFINITY_INFO_ON)
| rp_psci_features : psci_fid = SMC32_PSCI_FEATURES ->
    rsi_plain (rx0 r (if existsb (N.eqb (u32 (r_regs r 1))) psci_feature_fids then PSCI_RETURN_SUCCESS else PSCI_RETURN_NOT_SUPPORTED))
| rp_psci_unknown : in_range (SMC32_PSCI_FID 0) rsi_fid (SMC32_PSCI_FID 20) || in_range (SMC64_PSCI_FID 0) rsi_fid (SMC64_PSCI_FID 20) = true ->
    ~ In psci_fid [SMC32_PSCI_VERSION; SMC32_PSCI_CPU_SUSPEND; SMC64_PSCI_CPU_SUSPEND; SMC32_PSCI_CPU_OFF; SMC32_PSCI_CPU_ON; SMC64_PSCI_CPU_ON;
                   SMC32_PSCI_AFFINITY_INFO; SMC64_PSCI_AFFINITY_INFO; SMC32_PSCI_SYSTEM_OFF; SMC32_PSCI_SYSTEM_RESET; SMC32_PSCI_FEATURES] ->
    rsi_plain (rx0 r PSCI_RETURN_NOT_SUPPORTED)
| rp_version : rsi_fid = SMC_RSI_FID 0 ->
    rsi_plain (rx r (if r_regs r 1 =? RSI_ABI_VERSION then RSI_SUCCESS else RSI_ERROR_INPUT) RSI_ABI_VERSION RSI_ABI_VERSION 0)
| rp_features : rsi_fid = SMC_RSI_FID 1 -> rsi_plain (rx0 r RSI_SUCCESS)
| rp_read_bad : rsi_fid = SMC_RSI_FID 2 -> MEASUREMENT_SLOT_NR <= r_regs r 1 -> rsi_plain (rx0 r RSI_ERROR_INPUT)
| rp_extend_bad : rsi_fid = SMC_RSI_FID 3 -> r_regs r 1 = 0 \/ MEASUREMENT_SLOT_NR <= r_regs r 1 \/ MAX_EXTENDED_SIZE < r_regs r 2 ->
    rsi_plain (rx0 r RSI_ERROR_INPUT)
| rp_chunk_bad : rsi_fid = SMC_RSI_FID 5 -> chunk_bad -> rsi_plain (rx0 r RSI_ERROR_INPUT)
| rp_sign_state : rsi_fid = SMC_RSI_FID 5 -> ~ chunk_bad -> a_realm_len (v_att v) = 0 -> ae_sign env = SgState -> rsi_plain (rx0 r RSI_ERROR_STATE)
| rp_sign_fail : rsi_fid = SMC_RSI_FID 5 -> ~ chunk_bad -> a_realm_len (v_att v) = 0 -> ae_sign env = SgFail -> rsi_plain (rx0 r RSI_ERROR_UNKNOWN)
| rp_config_bad : rsi_fid = SMC_RSI_FID 6 -> r_regs r 1 mod 4096 <> 0 \/ par <= r_regs r 1 -> rsi_plain (rx0 r RSI_ERROR_INPUT)
| rp_set_bad : rsi_fid = SMC_RSI_FID 7 -> 1 < u32 (r_regs r 3) \/ range_bad -> rsi_plain (rx0 r RSI_ERROR_INPUT)
| rp_get_bad : rsi_fid = SMC_RSI_FID 8 -> range_bad -> rsi_plain (rx0 r RSI_ERROR_INPUT)
| rp_get : forall top w, rsi_fid = SMC_RSI_FID 8 -> ~ range_bad -> r_regs r 1 < top -> top <= r_regs r 2 -> top mod 4096 = 0 ->
    (forall p, r_regs r 1 / 4096 <= p -> p < top / 4096 -> exists l b e, Leaf gh rd p l b e /\ e_ripas e = w) ->
    rsi_plain (rx r RSI_SUCCESS top (ripas_code w) 0)
| rp_host_bad : rsi_fid = SMC_RSI_FID 9 -> host_bad -> rsi_plain (rx0 r RSI_ERROR_INPUT)
| rp_unknown : rsi_fid <> SMCCC_VERSION ->
    in_range (SMC32_PSCI_FID 0) rsi_fid (SMC32_PSCI_FID 20) || in_range (SMC64_PSCI_FID 0) rsi_fid (SMC64_PSCI_FID 20) = false ->
    (forall n, n <= 9 -> rsi_fid <> SMC_RSI_FID n) -> rsi_plain (rx0 r SMC_UNKNOWN).

(** The attestation data once the realm token is signed *)
Definition signed (a : att) : Prop :=
  (a_realm_len (v_att v) <> 0 /\ a = v_att v) \/
  (a_realm_len (v_att v) = 0 /\ exists len, ae_sign env = SgDone len /\ a = mkAtt len (a_copied (v_att v)) (a_len (v_att v)) (a_buf (v_att v))).

(** Calls that change the attestation data only, or nothing, and return *)
Inductive att_out : att -> res -> Prop :=
| ao_init : rsi_fid = SMC_RSI_FID 4 ->
    att_out (mkAtt 0 0 0 (a_buf (v_att v))) (if ae_init env && ae_create env then rx r RSI_SUCCESS REC_ATTEST_TOKEN_BUF_SIZE 0 0 else rx0 r RSI_ERROR_UNKNOWN)
| ao_none : forall a, rsi_fid = SMC_RSI_FID 5 -> ~ chunk_bad -> signed a -> r_regs r 3 = 0 -> att_out a (rx0 r RSI_INCOMPLETE)
| ao_fail : forall a a', rsi_fid = SMC_RSI_FID 5 -> ~ chunk_bad -> signed a -> r_regs r 3 <> 0 -> write_state env a (r_regs r 3) = (a', None) ->
    att_out a' (rx0 r RSI_ERROR_INPUT)
| ao_empty : forall a, rsi_empty (r_regs r 1) ->
    (rsi_fid = SMC_RSI_FID 5 /\ ~ chunk_bad /\ signed a) \/ (rsi_fid = SMC_RSI_FID 6 /\ r_regs r 1 mod 4096 = 0 /\ a = v_att v) \/
    (rsi_fid = SMC_RSI_FID 9 /\ ~ host_bad /\ a = v_att v) ->
    att_out a (rx0 r RSI_ERROR_INPUT).

(** Calls that write a page of the realm: its old and its new words *)
Inductive page_out (f f' : N -> N) : att -> res -> Prop :=
| po_config : rsi_fid = SMC_RSI_FID 6 -> r_regs r 1 mod 4096 = 0 -> f' = config_words f (ipa_bits (r_ctx r)) (r_algorithm r) (rd_rpv d) ->
    page_out f f' (v_att v) (rx0 r RSI_SUCCESS)
| po_chunk : forall a a' len fin, rsi_fid = SMC_RSI_FID 5 -> ~ chunk_bad -> signed a -> r_regs r 3 <> 0 ->
    write_state env a (r_regs r 3) = (a', Some (len, fin)) ->
    f' = put_bytes f (r_regs r 2) len (fun k => a_buf a' (a_copied a + k)) ->
    page_out f f' a' (rx r (if fin then RSI_SUCCESS else RSI_INCOMPLETE) len 0 0).

Inductive rsi_out : list label -> vcpu * rsi -> Prop :=
(* no effect but on the result registers *)
| ro_ret : forall x, rsi_plain x -> rsi_out [] (v, ret_realm x)
(* x5..x8 receive part of a measurement *)
| ro_read : rsi_fid = SMC_RSI_FID 2 -> r_regs r 1 < MEASUREMENT_SLOT_NR ->
    rsi_out [] (v_set_rec v (set_regs r (measurement_regs (r_regs r) (measurement_words (rd_algorithm d)) (rd_meas d (r_regs r 1)))),
                let m := rd_meas d (r_regs r 1) in
                ret_realm (mkRes RSI_SUCCESS (digest_word m 0) (digest_word m 1) (digest_word m 2) (digest_word m 3)))
(* only the attestation data changes *)
| ro_att : forall a x, (att_ok (v_att v) -> att_ok a) -> att_out a x -> rsi_out [] (v_set_att v a, ret_realm x)
| ro_irq : forall a len, (att_ok (v_att v) -> att_ok a) ->
    rsi_fid = SMC_RSI_FID 5 -> ~ chunk_bad -> a_realm_len (v_att v) = 0 -> ae_sign env = SgIrq len ->
    a = mkAtt len (a_copied (v_att v)) (a_len (v_att v)) (a_buf (v_att v)) ->
    rsi_out [] (mkV r (ex_set_reason (v_exit v) RMI_EXIT_IRQ) a, ret_host (rx0 r RSI_INCOMPLETE))
(* the monitor writes a page of the realm *)
| ro_write : forall g f f' a x, ram_page gh rd (r_regs r 1 / 4096) g -> r_regs r 1 < par -> (att_ok (v_att v) -> att_ok a) ->
    g_mem (G g) = CW f -> page_out f f' a x ->
    rsi_out [LFree g (mkG DATA 0 (CW f'))] (v_set_att v a, ret_realm x)
(* a measurement is extended *)
| ro_extend : forall i m, rsi_fid = SMC_RSI_FID 3 -> i = r_regs r 1 -> 1 <= i -> i < MEASUREMENT_SLOT_NR -> r_regs r 2 <= MAX_EXTENDED_SIZE ->
    m = c_hash c (rd_algorithm d) (rd_meas d i :: extend_bytes (r_regs r) (r_regs r 2)) ->
    rsi_out [LRd rd d (set_meas d i m)] (v, ret_realm (rx0 r RSI_SUCCESS))
(* the realm asks for a change of RIPAS *)
| ro_ripas : forall base top v0 v1, rsi_fid = SMC_RSI_FID 7 -> base mod 4096 = 0 -> top mod 4096 = 0 -> base < top ->
    top <= 2 ^ (ipa_bits (rd_ctx d) - 1) -> v0 <= 1 -> base = r_regs r 1 -> top = r_regs r 2 ->
    v0 = u32 (r_regs r 3) -> v1 = u32 (r_regs r 4) ->
    rsi_out [] (mkV (set_req r (mkReq base top base v0 v1 (sr_response (r_set_ripas r))))
                    (ex_set_ripas (ex_set_reason (v_exit v) RMI_EXIT_RIPAS_CHANGE) base top v0) (v_att v),
                ret_host (rx r RSI_SUCCESS top 0 0))
(* a host call *)
| ro_host : forall f g, rsi_fid = SMC_RSI_FID 9 -> r_regs r 1 mod 256 = 0 -> r_regs r 1 < 2 ^ (ipa_bits (rd_ctx d) - 1) ->
    ram_page gh rd (r_regs r 1 / 4096) g -> g_mem (G g) = CW f ->
    rsi_out [] (mkV (set_host_call r true)
                    (ex_set_reason (ex_set_gprs (ex_set_imm (v_exit v) (host_call_imm f (r_regs r 1 mod 4096)))
                       (host_call_gprs f (r_regs r 1 mod 4096))) RMI_EXIT_HOST_CALL) (v_att v), exit_host (rx0 r 0))
(* PSCI *)
| ro_psci : In (u32 (r_regs r 0)) [SMC32_PSCI_CPU_ON; SMC64_PSCI_CPU_ON; SMC32_PSCI_AFFINITY_INFO; SMC64_PSCI_AFFINITY_INFO] ->
    (cpu_on_fid -> r_regs r 2 < par) -> (affinity_fid -> r_regs r 2 = 0) ->
    mpidr_to_rec_idx (r_regs r 1) < rd_rec_count d -> mpidr_to_rec_idx (r_regs r 1) <> r_idx r ->
    rsi_out [] (mkV (set_psci_pending r true)
                    (ex_set_reason (ex_set_gprs (v_exit v) (forward_args 2 r)) RMI_EXIT_PSCI) (v_att v), exit_host (rx0 r 0))
| ro_suspend : psci_fid = SMC32_PSCI_CPU_SUSPEND \/ psci_fid = SMC64_PSCI_CPU_SUSPEND ->
    rsi_out [] (v_set_exit v (ex_set_reason (ex_set_gprs (v_exit v) (forward_args 1 r)) RMI_EXIT_PSCI),
                           ret_host (rx0 r PSCI_RETURN_SUCCESS))
| ro_off : psci_fid = SMC32_PSCI_CPU_OFF ->
    rsi_out [] (mkV (set_runnable r false)
                           (ex_set_reason (ex_set_gprs (v_exit v) (forward_args 1 r)) RMI_EXIT_PSCI) (v_att v),
                       ret_host (rx0 r PSCI_RETURN_SUCCESS))
| ro_system_off : psci_fid = SMC32_PSCI_SYSTEM_OFF \/ psci_fid = SMC32_PSCI_SYSTEM_RESET ->
    rsi_out [LRd rd d (set_rd_state d REALM_SYSTEM_OFF)]
            (v_set_exit v (ex_set_reason (ex_set_gprs (v_exit v) (forward_args 1 r)) RMI_EXIT_PSCI), exit_host (rx0 r 0))
(* a stage 2 fault at x1 *)
| ro_fault : forall a level, (att_ok (v_att v) -> att_ok a) -> (s2_sl (rd_ctx d) <= level <= 3)%Z ->
    (rsi_fid = SMC_RSI_FID 5 /\ ~ chunk_bad /\ signed a) \/ (rsi_fid = SMC_RSI_FID 6 /\ r_regs r 1 mod 4096 = 0 /\ a = v_att v) \/
    (rsi_fid = SMC_RSI_FID 9 /\ ~ host_bad /\ a = v_att v) ->
    rsi_faults (v_set_att v a, s2_fault (rx0 r 0) level) (v_set_att v a) (r_regs r 1) ->
    rsi_out [] (v_set_att v a, s2_fault (rx0 r 0) level).
End Out.

Lemma vset_id : forall v, v_set_att v (v_att v) = v.
Proof. intros []; reflexivity. Qed.

Section Rsi.
Variables (c : cfg) (gh : ghost) (G : N -> granule) (V : N -> bool).
Hypothesis C : cfg_ok c.
Hypothesis I : Inv c gh G V.
Variables (L S : N -> bool) (T : list tlbe).
Hypothesis HL : free L.
Hypothesis HS : slots_ok S.
Variables (v : vcpu) (d : rdesc).
Let r := v_rec v.
Let rd := r_g_rd r.
Variable env : att_env.
Hypothesis R : is_rd G rd d.
Hypothesis Ex : r_ctx r = rd_ctx d.

Definition rsi_post (P : list label -> vcpu * rsi -> Prop) (o : vcpu * rsi) (s' : state) : Prop :=
  exists L' S' G' labs, s' = mkS L' S' G' V T /\ (forall z, L' z = L z) /\ (forall z, S' z = S z) /\
    geffs c gh G V labs gh G' V /\ P labs o.

Lemma post_same : forall (P : list label -> vcpu * rsi -> Prop) o L' S', (forall z, L' z = L z) -> (forall z, S' z = S z) -> P [] o ->
  rsi_post P o (mkS L' S' G V T).
Proof. intros P o L' S' H1 H2 HP. exists L', S', G, []. repeat (split; [assumption || reflexivity|]). split; [apply gs_nil; reflexivity|exact HP]. Qed.

Lemma data_facts : forall p g, dmap gh g = Some (rd, p) ->
  g_state (G g) = DATA /\ g_ref (G g) = 0 /\ (exists f, g_mem (G g) = CW f) /\ find_granule c g = true.
Proof.
  intros p g D. pose proof (proj1 (i_dmap _ _ _ _ I _ _ _ D)) as Sg. destruct (i_data _ _ _ _ I _ Sg) as (H1 & H2 & _).
  split; [exact Sg|]. split; [exact H1|]. split; [exact H2|]. apply (i_gran _ _ _ _ I). congruence.
Qed.

Lemma post_write : forall (P : list label -> vcpu * rsi -> Prop) o L' S' G' p g f, (forall z, L' z = L z) -> (forall z, S' z = S z) ->
  dmap gh g = Some (rd, p) -> (forall z, G' z = upd G g (mkG DATA 0 (CW f)) z) ->
  P [LFree g (mkG DATA 0 (CW f))] o -> rsi_post P o (mkS L' S' G' V T).
Proof.
  intros P o L' S' G' p g f H1 H2 D HG HP. destruct (data_facts _ _ D) as (D1 & D2 & _).
  exists L', S', G', [LFree g (mkG DATA 0 (CW f))]. split; [reflexivity|]. split; [exact H1|]. split; [exact H2|]. split; [|exact HP].
  assert (E : G' g = mkG DATA 0 (CW f)) by (rewrite HG; apply upd_same). rewrite <- E.
  apply geffs_one. apply g_free.
  - right. split; [left; exact D1|]. exists f. rewrite D1, D2. exact E.
  - intros z n. rewrite HG. apply upd_other, n.
Qed.

Lemma wp_ipa_state_set : rsi_fid v = SMC_RSI_FID 7 -> wp False (handle_rsi_ipa_state_set v) (mkS L S G V T) (rsi_post (rsi_out c env gh G d v)).
Proof.
  intro F. unfold handle_rsi_ipa_state_set. fold r. unfold region_in_rec_par, addr_in_rec_par, is_aligned_granule. change GRANULE_SIZE with 4096.
  rewrite (rec_par_eq _ _ _ _ I r d Ex R). change RIPAS_RAM with 1.
  match goal with |- context [if ?b then _ else _] => destruct b eqn:B end.
  - apply wp_ret, post_same; try reflexivity. apply ro_ret, rp_set_bad; [exact F|]. unfold range_bad. fold r. clear -B. lia.
  - apply wp_ret, post_same; try reflexivity.
    assert (u32 (r_regs r 3) mod 256 = u32 (r_regs r 3)) as -> by (apply N.mod_small; lia).
    apply ro_ripas; try reflexivity; try exact F; fold r; lia.
Qed.

Lemma wp_ipa_state_get : rsi_fid v = SMC_RSI_FID 8 -> wp False (handle_rsi_ipa_state_get c v) (mkS L S G V T) (rsi_post (rsi_out c env gh G d v)).
Proof.
  intro F. unfold handle_rsi_ipa_state_get. fold r. unfold addr_in_rec_par, is_aligned_granule. change GRANULE_SIZE with 4096.
  rewrite (rec_par_eq _ _ _ _ I r d Ex R). set (par := 2 ^ (ipa_bits (rd_ctx d) - 1)).
  match goal with |- context [if ?b then _ else _] => destruct b eqn:B end.
  { apply wp_ret, post_same; try reflexivity. apply ro_ret, rp_get_bad; [exact F|]. unfold range_bad. fold r par.
    destruct (N.eqb_spec (r_regs r 2) 0) as [E0|n0]; [right; right; left; rewrite E0; apply N.le_0_l|]. clear -B n0. lia. }
  assert (Hend : r_regs r 2 <= par).
  { destruct (N.eqb_spec (r_regs r 2) 0) as [E0|n0]; [rewrite E0; apply N.le_0_l|]. clear -B n0. lia. }
  apply wp_bind. eapply (wp_get_ripas _ _ _ _ I); try eassumption; try (apply HS); try (clear -B; lia).
  { intros; apply HL. }
  intros top val L' S' H1 H2 H3 H4 H5. apply wp_ret, post_same; try assumption.
  assert (K : forall t, r_regs r 1 < t -> t <= top -> t <= r_regs r 2 -> t mod 4096 = 0 ->
    rsi_plain env gh d v (rx r RSI_SUCCESS t (ripas_code val) 0)).
  { intros t K1 K2 K3 K4. apply rp_get; try assumption.
    - unfold range_bad. fold r par. clear -B Hend. lia.
    - intros p P1 P2. apply H3; [exact P1|]. clear -P2 K2. lia. }
  apply ro_ret. destruct (N.ltb_spec (r_regs r 2) top); apply K; try lia.
Qed.

(** The outcomes of a walk that finds no memory *)
Lemma fault_out : forall a l b e ipa L' S', (att_ok (v_att v) -> att_ok a) ->
  (rsi_fid v = SMC_RSI_FID 5 /\ ~ chunk_bad d v /\ signed env v a) \/ (rsi_fid v = SMC_RSI_FID 6 /\ r_regs r 1 mod 4096 = 0 /\ a = v_att v) \/
    (rsi_fid v = SMC_RSI_FID 9 /\ ~ host_bad d v /\ a = v_att v) ->
  Leaf gh rd (ipa / 4096) l b e -> (forall pa, e <> EAsRam pa) -> (s2_sl (rd_ctx d) <= l <= 3)%Z ->
  ipa / 4096 = r_regs r 1 / 4096 -> r_regs r 1 < 2 ^ (ipa_bits (rd_ctx d) - 1) ->
  (forall z, L' z = L z) -> (forall z, S' z = S z) ->
  rsi_post (rsi_out c env gh G d v)
    (v_set_att v a, match e_ripas e with EMPTY => ret_realm (rx0 r RSI_ERROR_INPUT) | _ => s2_fault (rx0 r 0) l end)
    (mkS L' S' G V T).
Proof.
  intros a l b e ipa L' S' Ha Hw LF NE Hl Ep Hp H1 H2. apply post_same; try assumption.
  assert (K : e_ripas e <> EMPTY -> rsi_out c env gh G d v [] (v_set_att v a, s2_fault (rx0 r 0) l)).
  { intro N. apply ro_fault; try assumption. exists l, b, e. fold r rd. rewrite <- Ep. repeat (split; [assumption|]). right. auto. }
  destruct (e_ripas e) eqn:Er; try (apply K; discriminate). apply ro_att; [exact Ha|]. apply ao_empty; [|exact Hw].
  split; [exact Hp|]. exists l, b, e. fold r rd. rewrite <- Ep. auto.
Qed.

Lemma wp_realm_config : rsi_fid v = SMC_RSI_FID 6 -> wp False (handle_rsi_realm_config c v) (mkS L S G V T) (rsi_post (rsi_out c env gh G d v)).
Proof.
  intro F. unfold handle_rsi_realm_config, is_aligned_granule, addr_in_rec_par. fold r rd. change GRANULE_SIZE with 4096.
  rewrite (rec_par_eq _ _ _ _ I r d Ex R).
  match goal with |- context [if ?b then _ else _] => destruct b eqn:B end.
  { apply wp_ret, post_same; try reflexivity. apply ro_ret, rp_config_bad; [exact F|]. fold r. clear -B. lia. }
  destruct HS as (HS0 & HS1 & HS2 & HS3).
  apply wp_bind. eapply (wp_ipa_to_pa _ _ _ _ I); try eassumption; [intros; apply HL| | |]; fold r rd.
  - intros N. exfalso. clear -N B. lia.
  - intros l b pa g L1 S1 Al Hp LF Eg D Hl HL1 HS1'.
    destruct (data_facts _ _ D) as (D1 & D2 & (f & D3) & D4).
    assert (nb : b <> g). { intro E0. destruct LF as (O & _). apply (own_rtt _ _ _ _ I) in O. congruence. }
    assert (nd : g <> rd) by (intro E0; destruct R; congruence).
    apply wp_bind, wp_assert; [exact D4|]. apply wp_bind, wp_map_slot; [side|].
    apply wp_bind. eapply wp_get_table; [exact D3|].
    apply wp_bind, wp_map_slot; [side|].
    apply wp_bind. eapply wp_get_rd; [destruct R as [_ M]; rewrite M; reflexivity|].
    apply wp_bind, wp_wr_mem. apply wp_bind, wp_unmap_slot; [side|]. apply wp_bind, wp_unmap_slot; [side|].
    apply wp_bind, wp_granule_unlock; [side|updsimp; apply (inv_uok _ _ _ _ I)|]. apply wp_ret.
    eapply (post_write _ _ _ _ _ (r_regs r 1 / 4096) g).
    + intro z. unfold upd. destruct (N.eqb_spec z b) as [->|]; [symmetry; apply HL|]. rewrite HL1. apply upd_other. assumption.
    + lk.
    + exact D.
    + intro z. rewrite D1, D2. reflexivity.
    + rewrite <- (vset_id v) at 2. eapply (ro_write _ _ _ _ _ _ g); [|exact Hp|auto|exact D3|apply po_config; auto].
      exists l, b, pa. auto.
  - intros l b e L1 S1 Al Hp LF NE Hl HL1 HS1'.
    assert (K : rsi_post (rsi_out c env gh G d v) (v_set_att v (v_att v), match e_ripas e with EMPTY => ret_realm (rx0 r RSI_ERROR_INPUT) | _ => s2_fault (rx0 r 0) l end)
    (mkS L1 S1 G V T)) by (eapply fault_out; try eassumption; auto 6).
    rewrite vset_id in K. destruct (e_ripas e); apply wp_ret, K.
Qed.

Lemma wp_host_call : rsi_fid v = SMC_RSI_FID 9 -> wp False (handle_rsi_host_call c v) (mkS L S G V T) (rsi_post (rsi_out c env gh G d v)).
Proof.
  intro F. unfold handle_rsi_host_call, do_host_call_exit. fold r rd.
  assert (BAD : host_bad d v -> wp False (Ret (v, ret_realm (rx0 r RSI_ERROR_INPUT))) (mkS L S G V T) (rsi_post (rsi_out c env gh G d v))).
  { intro H. apply wp_ret, post_same; try reflexivity. apply ro_ret, rp_host_bad; assumption. }
  unfold host_bad in BAD. fold r in BAD.
  destruct (N.eqb_spec (r_regs r 1 mod 256) 0) as [A256|]; cbn [negb]; [|apply BAD; auto].
  destruct (N.eqb_spec (r_regs r 1 / 4096) (wrap64 (r_regs r 1 + 255) / 4096)) as [Aw|]; cbn [negb]; [|apply BAD; auto].
  destruct (addr_in_rec_par r (r_regs r 1)) eqn:B; cbn [negb].
  2:{ apply BAD. right. right. unfold addr_in_rec_par in B. rewrite (rec_par_eq _ _ _ _ I r d Ex R) in B. clear -B. lia. }
  apply wp_bind, wp_assert; [reflexivity|].
  assert (Hp : r_regs r 1 < 2 ^ (ipa_bits (rd_ctx d) - 1)).
  { unfold addr_in_rec_par in B. rewrite (rec_par_eq _ _ _ _ I r d Ex R) in B. lia. }
  assert (GOOD : ~ host_bad d v) by (unfold host_bad; fold r; clear -A256 Aw Hp; lia).
  set (a := r_regs r 1) in *.
  assert (P1 : (a - a mod 4096) mod 4096 = 0) by lia. assert (P2 : (a - a mod 4096) / 4096 = a / 4096) by lia.
  assert (P3 : a - (a - a mod 4096) = a mod 4096) by lia. rewrite P3.
  destruct HS as (HS0 & HS1 & HS2 & HS3).
  apply wp_bind. eapply (wp_ipa_to_pa _ _ _ _ I); try eassumption; [intros; apply HL| | |]; fold r rd; rewrite ?P2.
  - intros [N|N]; exfalso; [contradiction|]. clear -N Hp. lia.
  - intros l b pa g L1 S1 Al _ LF Eg D Hl HL1 HS1'.
    destruct (data_facts _ _ D) as (D1 & D2 & (f & D3) & D4).
    apply wp_bind, wp_assert; [exact D4|]. apply wp_bind, wp_map_slot; [side|].
    apply wp_bind. eapply wp_get_table; [exact D3|]. cbv zeta.
    apply wp_bind, wp_unmap_slot; [side|].
    apply wp_bind, wp_granule_unlock; [side|apply (inv_uok _ _ _ _ I)|]. apply wp_ret.
    apply post_same.
    + intro z. unfold upd. destruct (N.eqb_spec z b) as [->|]; [symmetry; apply HL|]. rewrite HL1. apply upd_other. assumption.
    + lk.
    + eapply (ro_host _ _ _ _ _ _ f g); try assumption. exists l, b, pa. auto.
  - intros l b e L1 S1 Al _ LF NE Hl HL1 HS1'.
    assert (K : rsi_post (rsi_out c env gh G d v) (v_set_att v (v_att v), match e_ripas e with EMPTY => ret_realm (rx0 r RSI_ERROR_INPUT) | _ => s2_fault (rx0 r 0) l end)
    (mkS L1 S1 G V T)) by (eapply (fault_out _ _ _ _ a); try eassumption; auto 6).
    rewrite vset_id in K. destruct (e_ripas e); apply wp_ret, K.
Qed.

(** Completion of a host call: the page receives the registers of the host *)
Lemma wp_complete_host_call : forall e, r_regs r 1 < 2 ^ (ipa_bits (rd_ctx d) - 1) ->
  wp False (complete_rsi_host_call c r e) (mkS L S G V T) (fun o s' =>
    exists L' S' G' labs, s' = mkS L' S' G' V T /\ (forall z, L' z = L z) /\ (forall z, S' z = S z) /\
    geffs c gh G V labs gh G' V /\
    ((exists l b pa g f, Leaf gh rd (r_regs r 1 / 4096) l b (EAsRam pa) /\ g = pa + (r_regs r 1 / 4096) mod pg l * 4096 /\
        dmap gh g = Some (rd, r_regs r 1 / 4096) /\ g_mem (G g) = CW f /\
        labs = [LFree g (mkG DATA 0 (CW (host_call_write f (r_regs r 1 mod 4096) (en_gprs e))))] /\
        o = (set_reg r 0 RSI_SUCCESS, None)) \/
     (labs = [] /\ exists l b x, Leaf gh rd (r_regs r 1 / 4096) l b x /\ (forall pa, x <> EAsRam pa) /\ (s2_sl (rd_ctx d) <= l <= 3)%Z /\
        o = (r, match e_ripas x with EMPTY => None | _ => Some l end)))).
Proof.
  intros e Hp. unfold complete_rsi_host_call.
  apply wp_bind, wp_assert. { unfold addr_in_rec_par. rewrite (rec_par_eq _ _ _ _ I r d Ex R). clear -Hp. lia. }
  set (a := r_regs r 1) in *.
  assert (P1 : (a - a mod 4096) mod 4096 = 0) by lia. assert (P2 : (a - a mod 4096) / 4096 = a / 4096) by lia.
  assert (P3 : a - (a - a mod 4096) = a mod 4096) by lia. rewrite P3.
  destruct HS as (HS0 & HS1 & HS2 & HS3).
  apply wp_bind. eapply (wp_ipa_to_pa _ _ _ _ I); try eassumption; [intros; apply HL| | |]; fold r rd; rewrite ?P2.
  - intros [N|N]; exfalso; [contradiction|]. clear -N Hp. lia.
  - intros l b pa g L1 S1 Al _ LF Eg D Hl HL1 HS1'.
    destruct (data_facts _ _ D) as (D1 & D2 & (f & D3) & D4).
    assert (nb : b <> g). { intro E0. destruct LF as (O & _). apply (own_rtt _ _ _ _ I) in O. congruence. }
    apply wp_bind, wp_assert; [exact D4|]. apply wp_bind, wp_map_slot; [side|].
    apply wp_bind. eapply wp_get_table; [exact D3|]. cbv zeta.
    apply wp_bind, wp_wr_mem. apply wp_bind, wp_unmap_slot; [side|].
    apply wp_bind, wp_granule_unlock; [side|updsimp; apply (inv_uok _ _ _ _ I)|]. apply wp_ret.
    assert (K : rsi_post (fun labs o => labs = [LFree g (mkG DATA 0 (CW (host_call_write f (a mod 4096) (en_gprs e))))])
      (v, ret_realm (rx0 r 0))
      (mkS (upd L1 b false) (upd (upd S1 SLOT_RSI_CALL true) SLOT_RSI_CALL false) (upd G g (mkG (g_state (G g)) (g_ref (G g)) (CW (host_call_write f (a mod 4096) (en_gprs e))))) V T)).
    { eapply (post_write _ _ _ _ _ (a / 4096) g).
      - intro z. unfold upd. destruct (N.eqb_spec z b) as [->|]; [symmetry; apply HL|]. rewrite HL1. apply upd_other. assumption.
      - lk.
      - exact D.
      - intro z. rewrite D1, D2. reflexivity.
      - reflexivity. }
    destruct K as (L' & S' & G' & labs & K1 & K2 & K3 & K4 & K5). exists L', S', G', labs. repeat (split; [assumption|]).
    left. exists l, b, pa, g, f. auto 8.
  - intros l b x L1 S1 Al _ LF NE Hl HL1 HS1'.
    assert (K : forall o, o = (r, match e_ripas x with EMPTY => None | _ => Some l end) -> wp False (Ret o) (mkS L1 S1 G V T) (fun o s' =>
      exists L' S' G' labs, s' = mkS L' S' G' V T /\ (forall z, L' z = L z) /\ (forall z, S' z = S z) /\
      geffs c gh G V labs gh G' V /\
    ((exists l b pa g f, Leaf gh rd (a / 4096) l b (EAsRam pa) /\ g = pa + (a / 4096) mod pg l * 4096 /\
        dmap gh g = Some (rd, a / 4096) /\ g_mem (G g) = CW f /\
        labs = [LFree g (mkG DATA 0 (CW (host_call_write f (a mod 4096) (en_gprs e))))] /\
        o = (set_reg r 0 RSI_SUCCESS, None)) \/
     (labs = [] /\ exists l b x, Leaf gh rd (a / 4096) l b x /\ (forall pa, x <> EAsRam pa) /\ (s2_sl (rd_ctx d) <= l <= 3)%Z /\
        o = (r, match e_ripas x with EMPTY => None | _ => Some l end))))).
    { intros o ->. apply wp_ret. exists L1, S1, G, []. split; [reflexivity|]. split; [exact HL1|]. split; [exact HS1'|].
      split; [apply gs_nil; reflexivity|]. right. split; [reflexivity|]. exists l, b, x. auto 6. }
    destruct (e_ripas x); apply K; reflexivity.
Qed.

Lemma set_meas_le : forall i m, rd_le c d (set_meas d i m).
Proof.
  intros. split; [reflexivity|]. split; [exact (inv_rd_ok _ _ _ _ I _ _ R)|]. split; [intros rc H; exact H|]. split; reflexivity.
Qed.
Lemma set_state_le : rd_le c d (set_rd_state d REALM_SYSTEM_OFF).
Proof.
  destruct (inv_rd_ok _ _ _ _ I _ _ R) as (H1 & H2 & H3).
  split; [reflexivity|]. split; [|split; [intros rc H; exact H|split; [exact H2|reflexivity]]].
  split; [exact H1|]. split; [vm_compute; discriminate|exact H3].
Qed.
Lemma post_rd : forall (P : list label -> vcpu * rsi -> Prop) o L' S' G' d', (forall z, L' z = L z) -> (forall z, S' z = S z) ->
  rd_le c d d' -> (forall z, G' z = upd G rd (mkG RD (g_ref (G rd)) (CRd d')) z) -> P [LRd rd d d'] o ->
  rsi_post P o (mkS L' S' G' V T).
Proof.
  intros P o L' S' G' d' H1 H2 LE HG HP. exists L', S', G', [LRd rd d d']. split; [reflexivity|]. split; [exact H1|]. split; [exact H2|].
  split; [|exact HP]. apply geffs_one. apply g_rd; try assumption.
  - rewrite HG. apply upd_same.
  - intros z n. rewrite HG. apply upd_other, n.
Qed.

Lemma wp_measurement_extend : rsi_fid v = SMC_RSI_FID 3 -> wp False (handle_rsi_measurement_extend c v) (mkS L S G V T) (rsi_post (rsi_out c env gh G d v)).
Proof.
  intro F0. unfold handle_rsi_measurement_extend. fold r rd. destruct HS as (HS0 & HS1 & HS2 & HS3). destruct R as [Sr Mr].
  apply wp_bind, wp_find_lock; [apply HL|apply (inv_uok _ _ _ _ I)| |].
  2:{ intros L' _ [F|F]; [|contradiction]. rewrite (i_gran _ _ _ _ I rd) in F by congruence. discriminate. }
  intros F _. apply wp_bind, wp_assert; [reflexivity|]. apply wp_bind, wp_map_slot; [exact HS1|].
  apply wp_bind. eapply wp_get_rd; [rewrite Mr; reflexivity|]. cbv zeta.
  assert (BAD : r_regs r 1 = 0 \/ MEASUREMENT_SLOT_NR <= r_regs r 1 \/ MAX_EXTENDED_SIZE < r_regs r 2 -> wp False (x <- Ret RSI_ERROR_INPUT ;; unmap_slot SLOT_RD ;;; granule_unlock rd ;;; Ret (v, ret_realm (rx0 r x)))
     (mkS (upd L rd true) (upd S SLOT_RD true) G V T) (rsi_post (rsi_out c env gh G d v))).
  { intro Hb. apply wp_bind, wp_ret, wp_bind, wp_unmap_slot; [side|]. apply wp_bind, wp_granule_unlock; [side|apply (inv_uok _ _ _ _ I)|]. apply wp_ret.
    apply post_same; [|lk|apply ro_ret, rp_extend_bad; assumption]. intro z. unfold upd. destruct (N.eqb_spec z rd) as [->|]; [symmetry; apply HL|reflexivity]. }
  destruct ((r_regs r 1 =? 0) || (MEASUREMENT_SLOT_NR <=? r_regs r 1)) eqn:B1; [apply BAD; clear -B1; lia|].
  destruct (MAX_EXTENDED_SIZE <? r_regs r 2) eqn:B2; [apply BAD; clear -B2; lia|].
  apply wp_bind, wp_bind, wp_put_rd. apply wp_ret.
  apply wp_bind, wp_unmap_slot; [side|]. apply wp_bind, wp_granule_unlock; [side| |].
  { pose proof (inv_uok _ _ _ _ I rd) as U. unfold uok in *. updsimp. exact U. }
  apply wp_ret. eapply post_rd; [| |apply set_meas_le| |].
  - intro z. unfold upd. destruct (N.eqb_spec z rd) as [->|]; [symmetry; apply HL|reflexivity].
  - lk.
  - intro z. rewrite Sr. reflexivity.
  - apply ro_extend; [exact F0|reflexivity|clear -B1; fold r; lia|clear -B1; fold r; lia|clear -B2; fold r; lia|reflexivity].
Qed.

Lemma wp_measurement_read : rsi_fid v = SMC_RSI_FID 2 -> wp False (handle_rsi_measurement_read v) (mkS L S G V T) (rsi_post (rsi_out c env gh G d v)).
Proof.
  intro F. unfold handle_rsi_measurement_read. fold r rd. destruct HS as (HS0 & HS1 & HS2 & HS3). destruct R as [Sr Mr].
  destruct (N.leb_spec MEASUREMENT_SLOT_NR (r_regs r 1)) as [B|B]; [apply wp_ret, post_same; try reflexivity; apply ro_ret, rp_read_bad; assumption|].
  apply wp_bind, wp_granule_lock; [apply HL|apply (inv_uok _ _ _ _ I)|exact Sr|]. apply wp_bind, wp_map_slot; [exact HS1|].
  apply wp_bind. eapply wp_get_rd; [rewrite Mr; reflexivity|]. cbv zeta.
  apply wp_bind, wp_unmap_slot; [side|]. apply wp_bind, wp_granule_unlock; [side|apply (inv_uok _ _ _ _ I)|]. apply wp_ret.
  apply post_same; [|lk|]. { intro z. unfold upd. destruct (N.eqb_spec z rd) as [->|]; [symmetry; apply HL|reflexivity]. }
  apply ro_read; assumption.
Qed.

Lemma wp_attest_init : rsi_fid v = SMC_RSI_FID 4 -> wp False (handle_rsi_attest_token_init env v) (mkS L S G V T) (rsi_post (rsi_out c env gh G d v)).
Proof.
  intro F. unfold handle_rsi_attest_token_init. fold r rd. destruct HS as (HS0 & HS1 & HS2 & HS3). destruct R as [Sr Mr]. cbv zeta.
  assert (A0 : att_ok (v_att v) -> att_ok (mkAtt 0 0 0 (a_buf (v_att v)))) by (intros _; left; reflexivity).
  pose proof (ao_init env gh d v F) as AO. destruct (ae_init env); cbn [negb andb] in *; [|apply wp_ret, post_same; try reflexivity; apply ro_att; [exact A0|exact AO]].
  apply wp_bind, wp_granule_lock; [apply HL|apply (inv_uok _ _ _ _ I)|exact Sr|]. apply wp_bind, wp_map_slot; [exact HS1|].
  apply wp_bind. eapply wp_get_rd; [rewrite Mr; reflexivity|].
  apply wp_bind, wp_unmap_slot; [side|]. apply wp_bind, wp_granule_unlock; [side|apply (inv_uok _ _ _ _ I)|].
  assert (K : forall o, rsi_out c env gh G d v [] o -> wp False (Ret o) (mkS (upd (upd L rd true) rd false) (upd (upd S SLOT_RD true) SLOT_RD false) G V T) (rsi_post (rsi_out c env gh G d v))).
  { intros o Ho. apply wp_ret, post_same; [|lk|exact Ho]. intro z. unfold upd. destruct (N.eqb_spec z rd) as [->|]; [symmetry; apply HL|reflexivity]. }
  destruct (ae_create env); cbn [negb]; apply K, ro_att; assumption.
Qed.

Lemma write_state_ok : forall ev0 a size, cca_ok ev0 -> att_ok a ->
  att_ok (fst (write_state ev0 a size)) /\
  (forall len fin, snd (write_state ev0 a size) = Some (len, fin) -> a_copied a + len <= REC_ATTEST_TOKEN_BUF_SIZE).
Proof.
  intros ev0 a size Hc Ha. unfold write_state.
  destruct (N.eqb_spec (a_copied a) 0) as [E0|n0].
  - destruct (ae_cca ev0) as [[len bytes]|] eqn:Ec; cbn [fst snd a_len a_copied]; [|split; [exact Ha|discriminate]].
    pose proof (Hc _ _ Ec) as B. destruct (N.ltb_spec size len) as [Q|Q].
    + destruct (N.eqb_spec (len - size) 0); cbn [negb fst snd].
      * split; [left; exact E0|]. intros ? ? E. injection E as <- _. lia.
      * split; [right; cbn [a_copied a_len]; lia|]. intros ? ? E. injection E as <- _. lia.
    + rewrite N.sub_diag. cbn [negb N.eqb fst snd]. split; [left; exact E0|]. intros ? ? E. injection E as <- _. lia.
  - destruct Ha as [Ha|Ha]; [contradiction|]. destruct (N.ltb_spec size (a_len a)) as [Q|Q].
    + destruct (N.eqb_spec (a_len a - size) 0); cbn [negb fst snd].
      * split; [right; exact Ha|]. intros ? ? E. injection E as <- _. lia.
      * split; [right; cbn [a_copied a_len]; lia|]. intros ? ? E. injection E as <- _. lia.
    + rewrite N.sub_diag. cbn [negb N.eqb fst snd]. split; [right; exact Ha|]. intros ? ? E. injection E as <- _. lia.
Qed.

Lemma wp_attest_write : forall a, rsi_fid v = SMC_RSI_FID 5 -> ~ chunk_bad d v -> signed env v a -> (att_ok (v_att v) -> att_ok a) -> cca_ok env -> att_ok (v_att v) ->
  r_regs r 1 mod 4096 = 0 -> r_regs r 1 < 2 ^ (ipa_bits (rd_ctx d) - 1) ->
  wp False (attest_token_continue_write_state c env (v_set_att v a)) (mkS L S G V T) (rsi_post (rsi_out c env gh G d v)).
Proof.
  intros a F NB SG Ha Hc Hv Al Hp. unfold attest_token_continue_write_state. change (v_rec (v_set_att v a)) with r. cbv zeta.
  change (v_att (v_set_att v a)) with a.
  destruct HS as (HS0 & HS1 & HS2 & HS3).
  apply wp_bind. eapply (wp_ipa_to_pa _ _ _ _ I); try eassumption; [intros; apply HL| | |]; fold r rd.
  - intros [N|N]; exfalso; [contradiction|]. clear -N Hp. lia.
  - intros l b pa g L1 S1 _ _ LF Eg D Hl HL1 HS1'.
    destruct (data_facts _ _ D) as (D1 & D2 & (f & D3) & D4).
    assert (nb : b <> g). { intro E0. destruct LF as (O & _). apply (own_rtt _ _ _ _ I) in O. congruence. }
    assert (UL : forall z, upd L1 b false z = L z).
    { intro z. unfold upd. destruct (N.eqb_spec z b) as [->|]; [symmetry; apply HL|]. rewrite HL1. apply upd_other. assumption. }
    destruct (N.eqb_spec (r_regs r 3) 0) as [E3|N3].
    { apply wp_bind, wp_granule_unlock; [side|apply (inv_uok _ _ _ _ I)|]. apply wp_ret, post_same; [exact UL|exact HS1'|].
      apply ro_att; [exact Ha|]. apply ao_none; assumption. }
    apply wp_bind, wp_assert; [exact D4|]. apply wp_bind, wp_map_slot; [side|].
    destruct (write_state_ok env a (r_regs r 3) Hc (Ha Hv)) as (W1 & W2).
    destruct (write_state env a (r_regs r 3)) as [a' o] eqn:EW. cbn [fst snd] in *.
    destruct o as [[len fin]|].
    + apply wp_bind, wp_bind, wp_assert; [specialize (W2 _ _ eq_refl); clear -W2; lia|].
      apply wp_bind. eapply wp_get_table; [exact D3|]. apply wp_bind, wp_wr_mem. apply wp_ret.
      apply wp_bind, wp_unmap_slot; [side|]. apply wp_bind, wp_granule_unlock; [side|updsimp; apply (inv_uok _ _ _ _ I)|]. apply wp_ret.
      eapply (post_write _ _ _ _ _ (r_regs r 1 / 4096) g); [exact UL|lk|exact D|intro z; rewrite D1, D2; reflexivity|].
      change (v_set_att (v_set_att v a) a') with (v_set_att v a').
      eapply (ro_write _ _ _ _ _ _ g); [|exact Hp|intros _; exact W1|exact D3|eapply po_chunk; try eassumption; reflexivity]. exists l, b, pa. auto.
    + apply wp_bind, wp_ret. apply wp_bind, wp_unmap_slot; [side|]. apply wp_bind, wp_granule_unlock; [side|apply (inv_uok _ _ _ _ I)|]. apply wp_ret.
      apply post_same; [exact UL|lk|]. change (v_set_att (v_set_att v a) a') with (v_set_att v a'). apply ro_att; [intros _; exact W1|]. eapply ao_fail; eassumption.
  - intros l b e L1 S1 _ _ LF NE Hl HL1 HS1'.
    assert (K : rsi_post (rsi_out c env gh G d v) (v_set_att v a, match e_ripas e with EMPTY => ret_realm (rx0 r RSI_ERROR_INPUT) | _ => s2_fault (rx0 r 0) l end)
      (mkS L1 S1 G V T)) by (eapply fault_out; try eassumption; auto).
    destruct (e_ripas e); apply wp_ret, K.
Qed.

Lemma wp_attest_continue : rsi_fid v = SMC_RSI_FID 5 -> cca_ok env -> att_ok (v_att v) ->
  wp False (handle_rsi_attest_token_continue c env v) (mkS L S G V T) (rsi_post (rsi_out c env gh G d v)).
Proof.
  intros F Hc Hv. unfold handle_rsi_attest_token_continue. fold r. cbv zeta.
  match goal with |- context [if ?b then _ else _] => destruct b eqn:B end.
  { apply wp_ret, post_same; try reflexivity; apply ro_ret, rp_chunk_bad; [exact F|]. unfold chunk_bad. fold r.
    unfold is_aligned_granule in B. change GRANULE_SIZE with 4096 in B. clear -B. lia. }
  destruct (addr_in_rec_par r (r_regs r 1)) eqn:B2; cbn [negb].
  2:{ apply wp_ret, post_same; try reflexivity; apply ro_ret, rp_chunk_bad; [exact F|]. unfold chunk_bad. fold r.
      unfold addr_in_rec_par in B2. rewrite (rec_par_eq _ _ _ _ I r d Ex R) in B2. clear -B2. lia. }
  assert (Al : r_regs r 1 mod 4096 = 0).
  { unfold is_aligned_granule in B. change GRANULE_SIZE with 4096 in B. clear -B. lia. }
  assert (Hp : r_regs r 1 < 2 ^ (ipa_bits (rd_ctx d) - 1)).
  { unfold addr_in_rec_par in B2. rewrite (rec_par_eq _ _ _ _ I r d Ex R) in B2. clear -B2. lia. }
  assert (A1 : forall len, att_ok (v_att v) -> att_ok (mkAtt len (a_copied (v_att v)) (a_len (v_att v)) (a_buf (v_att v)))) by (intros len H; exact H).
  assert (NB : ~ chunk_bad d v).
  { unfold chunk_bad. fold r. unfold is_aligned_granule in B. change GRANULE_SIZE with 4096 in B. clear -B Hp. lia. }
  destruct (N.eqb_spec (a_realm_len (v_att v)) 0) as [E0|N0]; cbn [negb].
  - destruct (ae_sign env) eqn:SE.
    + apply wp_attest_write; auto. right. split; [exact E0|]. exists len. auto.
    + apply wp_ret, post_same; try reflexivity; apply ro_ret, rp_sign_state; assumption.
    + apply wp_ret, post_same; try reflexivity; apply ro_ret, rp_sign_fail; assumption.
    + apply wp_ret, post_same; try reflexivity; eapply ro_irq; try eassumption; auto.
  - rewrite <- (vset_id v) at 1. apply wp_attest_write; auto. left. auto.
Qed.

Lemma wp_rec_count : forall B (K : N -> prog B) Q,
  (forall S', (forall z, S' z = S z) -> wp False (K (rd_rec_count d)) (mkS L S' G V T) Q) ->
  wp False (n <- rd_map_read_rec_count rd ;; K n) (mkS L S G V T) Q.
Proof.
  intros B K Q H. destruct HS as (HS0 & HS1 & HS2 & HS3). apply wp_bind. unfold rd_map_read_rec_count.
  apply wp_bind, wp_map_slot; [exact HS1|]. apply wp_bind. eapply wp_get_rd; [destruct R as [_ M]; rewrite M; reflexivity|].
  apply wp_bind, wp_unmap_slot; [side|]. apply wp_ret. apply H. lk.
Qed.

Lemma wp_handle_psci :
  in_range (SMC32_PSCI_FID 0) (rsi_fid v) (SMC32_PSCI_FID 20) || in_range (SMC64_PSCI_FID 0) (rsi_fid v) (SMC64_PSCI_FID 20) = true ->
  wp False (handle_psci v) (mkS L S G V T) (rsi_post (rsi_out c env gh G d v)).
Proof.
  intro FR. unfold handle_psci. apply wp_bind.
  set (Q := fun (a : vcpu * rsi) (s' : state) => wp False
    (Ret (if ra_exit (snd a) then (v_set_exit (fst a) (ex_set_reason (v_exit (fst a)) RMI_EXIT_PSCI), snd a) else a)) s'
    (rsi_post (rsi_out c env gh G d v))).
  assert (RET : forall x S', rsi_plain env gh d v x -> (forall z, S' z = S z) -> wp False (Ret (v, ret_realm x)) (mkS L S' G V T) Q).
  { intros x S' HP H. apply wp_ret. unfold Q. cbn [fst snd ra_exit ret_realm]. apply wp_ret, post_same; [reflexivity|exact H|apply ro_ret, HP]. }
  assert (OUT : forall o S', (forall z, S' z = S z) -> ra_exit (snd o) = true ->
     rsi_out c env gh G d v [] (v_set_exit (fst o) (ex_set_reason (v_exit (fst o)) RMI_EXIT_PSCI), snd o) -> wp False (Ret o) (mkS L S' G V T) Q).
  { intros o S' H E Ho. apply wp_ret. unfold Q. rewrite E. apply wp_ret, post_same; [reflexivity|exact H|exact Ho]. }
  unfold psci_dispatch. fold r. cbv zeta. set (fid := u32 (r_regs r 0)).
  assert (IS : forall l, existsb (N.eqb fid) l = true -> In fid l).
  { intros l H. apply existsb_exists in H. destruct H as (y & H1 & H2). apply N.eqb_eq in H2. subst y. exact H1. }
  assert (NI : forall l, existsb (N.eqb fid) l = false -> ~ In fid l).
  { intros l H K. assert (existsb (N.eqb fid) l = true) by (apply existsb_exists; exists fid; split; [exact K|apply N.eqb_refl]). congruence. }
  destruct (existsb (N.eqb fid) [SMC32_PSCI_VERSION]) eqn:F0.
  { apply IS in F0. destruct F0 as [F0|[]]. apply RET; [|reflexivity]. apply rp_psci_version. symmetry. exact F0. }
  destruct (existsb (N.eqb fid) [SMC32_PSCI_CPU_SUSPEND; SMC64_PSCI_CPU_SUSPEND]) eqn:F1.
  { apply IS in F1. unfold psci_cpu_suspend. fold r. cbv zeta. apply OUT; try reflexivity. refine (ro_suspend c env gh G d v _).
    unfold psci_fid. fold r fid. destruct F1 as [F1|[F1|[]]]; auto. }
  destruct (existsb (N.eqb fid) [SMC32_PSCI_CPU_OFF]) eqn:F2.
  { apply IS in F2. unfold psci_cpu_off. fold r. cbv zeta. apply OUT; try reflexivity. refine (ro_off c env gh G d v _).
    unfold psci_fid. fold r fid. destruct F2 as [F2|[]]; auto. }
  destruct (existsb (N.eqb fid) [SMC32_PSCI_CPU_ON; SMC64_PSCI_CPU_ON]) eqn:F3.
  { apply IS in F3. assert (ON : cpu_on_fid v) by (unfold cpu_on_fid, psci_fid; fold r fid; destruct F3 as [F3|[F3|[]]]; auto).
    unfold psci_cpu_on, addr_in_rec_par. fold r rd. rewrite (rec_par_eq _ _ _ _ I r d Ex R). cbv zeta.
    destruct (N.ltb_spec (r_regs r 2) (2 ^ (ipa_bits (rd_ctx d) - 1))) as [B0|B0]; cbn [negb]; [|apply RET; [apply rp_on_address; assumption|reflexivity]].
    apply wp_rec_count. intros S' HS'.
    destruct (N.leb_spec (rd_rec_count d) (mpidr_to_rec_idx (r_regs r 1))) as [B1|B1]; [apply RET; [apply rp_on_params; assumption|exact HS']|].
    destruct (N.eqb_spec (mpidr_to_rec_idx (r_regs r 1)) (r_idx r)) as [B2|B2]; [apply RET; [apply rp_on_already; assumption|exact HS']|].
    apply OUT; try exact HS'; try reflexivity. refine (ro_psci c env gh G d v _ (fun _ => B0) _ B1 B2).
    - fold r fid. destruct F3 as [<-|[<-|[]]]; cbn; auto.
    - intro AF. exfalso. unfold affinity_fid, psci_fid in AF. fold r fid in AF. clear -F3 AF. destruct F3 as [<-|[<-|[]]]; destruct AF; discriminate. }
  destruct (existsb (N.eqb fid) [SMC32_PSCI_AFFINITY_INFO; SMC64_PSCI_AFFINITY_INFO]) eqn:F4.
  { apply IS in F4. assert (AF : affinity_fid v) by (unfold affinity_fid, psci_fid; fold r fid; destruct F4 as [F4|[F4|[]]]; auto).
    unfold psci_affinity_info. fold r rd. cbv zeta.
    destruct (N.eqb_spec (r_regs r 2) 0) as [B0|B0]; cbn [negb]; [|apply RET; [apply rp_aff_params; auto|reflexivity]].
    apply wp_rec_count. intros S' HS'.
    destruct (N.leb_spec (rd_rec_count d) (mpidr_to_rec_idx (r_regs r 1))) as [B1|B1]; [apply RET; [apply rp_aff_params; auto|exact HS']|].
    destruct (N.eqb_spec (mpidr_to_rec_idx (r_regs r 1)) (r_idx r)) as [B2|B2]; [apply RET; [apply rp_aff_on; assumption|exact HS']|].
    apply OUT; try exact HS'; try reflexivity. refine (ro_psci c env gh G d v _ _ (fun _ => B0) B1 B2).
    - fold r fid. destruct F4 as [<-|[<-|[]]]; cbn; auto.
    - intro ON. exfalso. unfold cpu_on_fid, psci_fid in ON. fold r fid in ON. clear -F4 ON. destruct F4 as [<-|[<-|[]]]; destruct ON; discriminate. }
  destruct (existsb (N.eqb fid) [SMC32_PSCI_SYSTEM_OFF; SMC32_PSCI_SYSTEM_RESET]) eqn:F5.
  { apply IS in F5. unfold psci_system_off_reset. fold r rd. cbv zeta. destruct HS as (HS0 & HS1 & HS2 & HS3). pose proof R as [Sr Mr].
    apply wp_bind, wp_granule_lock; [apply HL|apply (inv_uok _ _ _ _ I)|exact Sr|]. apply wp_bind, wp_map_slot; [exact HS1|].
    apply wp_bind. eapply wp_get_rd; [rewrite Mr; reflexivity|]. apply wp_bind, wp_put_rd.
    apply wp_bind, wp_unmap_slot; [side|]. apply wp_bind, wp_granule_unlock; [side| |].
    { pose proof (inv_uok _ _ _ _ I rd) as U. unfold uok in *. updsimp. exact U. }
    apply wp_ret. unfold Q. cbn [fst snd ra_exit exit_host]. apply wp_ret.
    eapply post_rd; [| |apply set_state_le| |].
    - intro z. unfold upd. destruct (N.eqb_spec z rd) as [->|]; [symmetry; apply HL|reflexivity].
    - lk.
    - intro z. rewrite Sr. reflexivity.
    - refine (ro_system_off c env gh G d v _). unfold psci_fid. fold r fid. destruct F5 as [F5|[F5|[]]]; auto. }
  destruct (existsb (N.eqb fid) [SMC32_PSCI_FEATURES]) eqn:F6.
  { apply IS in F6. unfold psci_features; fold r; cbv zeta; apply RET; [|reflexivity]. apply rp_psci_features. destruct F6 as [F6|[]]. symmetry. exact F6. }
  apply RET; [|reflexivity]. apply rp_psci_unknown; [exact FR|]. unfold psci_fid. fold r fid.
  apply NI in F0, F1, F2, F3, F4, F5, F6. clear -F0 F1 F2 F3 F4 F5 F6. cbn [In] in *. tauto.
Qed.

(** Every call has one of the effects of [rsi_out] and does not fail an assertion *)
Lemma wp_rsi_dispatch : cca_ok env -> att_ok (v_att v) ->
  wp False (rsi_dispatch c env v) (mkS L S G V T) (rsi_post (rsi_out c env gh G d v)).
Proof.
  intros Hc Hv. unfold rsi_dispatch. fold r. cbv zeta. change (N.ldiff (u32 (r_regs r 0)) SMC_SVE_HINT) with (rsi_fid v).
  assert (RET : forall x, rsi_plain env gh d v x -> wp False (Ret (v, ret_realm x)) (mkS L S G V T) (rsi_post (rsi_out c env gh G d v))).
  { intros x Hx. apply wp_ret, post_same; try reflexivity. apply ro_ret, Hx. }
  destruct (N.eqb_spec (rsi_fid v) SMCCC_VERSION); [apply RET, rp_smccc; assumption|].
  destruct (in_range (SMC32_PSCI_FID 0) (rsi_fid v) (SMC32_PSCI_FID 20)) eqn:P1; [apply wp_handle_psci; rewrite P1; reflexivity|].
  destruct (in_range (SMC64_PSCI_FID 0) (rsi_fid v) (SMC64_PSCI_FID 20)) eqn:P2; [apply wp_handle_psci; rewrite P2; apply orb_true_r|].
  destruct (N.eqb_spec (rsi_fid v) (SMC_RSI_FID 0)); [apply RET, rp_version; assumption|].
  destruct (N.eqb_spec (rsi_fid v) (SMC_RSI_FID 1)); [apply RET, rp_features; assumption|].
  destruct (N.eqb_spec (rsi_fid v) (SMC_RSI_FID 2)); [apply wp_measurement_read; assumption|].
  destruct (N.eqb_spec (rsi_fid v) (SMC_RSI_FID 3)); [apply wp_measurement_extend; assumption|].
  destruct (N.eqb_spec (rsi_fid v) (SMC_RSI_FID 4)); [apply wp_attest_init; assumption|].
  destruct (N.eqb_spec (rsi_fid v) (SMC_RSI_FID 5)); [apply wp_attest_continue; assumption|].
  destruct (N.eqb_spec (rsi_fid v) (SMC_RSI_FID 6)); [apply wp_realm_config; assumption|].
  destruct (N.eqb_spec (rsi_fid v) (SMC_RSI_FID 7)); [apply wp_ipa_state_set; assumption|].
  destruct (N.eqb_spec (rsi_fid v) (SMC_RSI_FID 8)); [apply wp_ipa_state_get; assumption|].
  destruct (N.eqb_spec (rsi_fid v) (SMC_RSI_FID 9)); [apply wp_host_call; assumption|].
  apply RET, rp_unknown; try assumption.
  - rewrite P1, P2. reflexivity.
  - intros k K. assert (k = 0 \/ k = 1 \/ k = 2 \/ k = 3 \/ k = 4 \/ k = 5 \/ k = 6 \/ k = 7 \/ k = 8 \/ k = 9) as Ks by (clear -K; lia).
    repeat destruct Ks as [->|Ks]; try assumption. subst k. assumption.
Qed.
End Rsi.
