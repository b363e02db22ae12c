(** The invariant of the monitor's state.

    The ghost state labels every translation table with the realm that owns it,
    its level and its number: table [t] of level [l] holds the entries
    [512 * t .. 512 * t + 511] of that level, entry [n] of level [l] translating
    the addresses [n * 2^lsb .. (n + 1) * 2^lsb - 1]. *)
From Coq Require Import NArith ZArith List Bool Lia ZifyBool ZifyN FinFun.
From Verif Require Import Bits S2tte S2tteFacts State Granule Wp RecFields Measure RmiRtt RmiRealm Psci RmiRec.
From Verif Require Export Spec.
Import ListNotations.
Local Open Scope N_scope.

Notation ms := s2tte_map_size.

(** Number of granules mapped by one entry of a level *)
Definition pg (l : Z) : N := 2 ^ Z.to_N ((3 - l) * 9).

Definition counted (e : entry) : bool :=
  match e with EAsEmpty _ | EAsRam _ | EAsDestr _ | ETable _ => true | _ => false end.
(** The granule of an entry that maps a data granule of the realm *)
Definition asg (e : entry) : option N :=
  match e with EAsEmpty pa | EAsRam pa | EAsDestr pa => Some pa | _ => None end.
Definition cnt (f : N -> entry) : N := N.of_nat (length (filter (fun i => counted (f i)) idx512)).

Record ghost := mkGh {
  own : N -> option (N * Z * N);
  ent : N -> N -> entry;
  dmap : N -> option (N * N);
  recs : N -> list N;
  auxo : N -> option N
}.

Definition is_rd (G : N -> granule) (a : N) (d : rdesc) : Prop := g_state (G a) = RD /\ g_mem (G a) = CRd d.
Definition is_rec (G : N -> granule) (a : N) (r : recd) : Prop := g_state (G a) = REC /\ g_mem (G a) = CRec r.

(** Number of entries of a level in the protected half and in the whole
    address space *)
Definition parn (x : s2ctx) (l : Z) : N := 2 ^ (ipa_bits x - 1 - lvl_lsb l).
Definition ipan (x : s2ctx) (l : Z) : N := 2 * parn x l.

Definition ctx_ok (x : s2ctx) : Prop :=
  (min_starting_level (enable_lpa2 x) <= s2_sl x <= 2)%Z /\
  lvl_lsb (s2_sl x) < ipa_bits x /\ ipa_bits x <= oa_bits (enable_lpa2 x) /\
  ipa_bits x <= lvl_lsb (s2_sl x) + 13 /\
  num_root_rtts x = s2_num_root_rtts (ipa_bits x) (s2_sl x).

Definition entry_ok (gh : ghost) (x : s2ctx) (rd : N) (l : Z) (n : N) (e : entry) : Prop :=
  valid_entry (enable_lpa2 x) l e /\
  match e with
  | EUnEmpty => n < parn x l \/ ipan x l <= n
  | EUnRam | EUnDestr => n < parn x l
  | EUnNs | EAsNs _ _ => parn x l <= n < ipan x l
  | EAsEmpty pa | EAsRam pa | EAsDestr pa =>
      n < parn x l /\ forall p, p / pg l = n -> dmap gh (pa + (p mod pg l) * 4096) = Some (rd, p)
  | ETable b => n < ipan x l /\ own gh b = Some (rd, (l + 1)%Z, n)
  end.

(** The words of a table encode the ghost entries *)
Definition words_ok (lpa2 : bool) (l : Z) (f : N -> N) (e : N -> entry) : Prop :=
  forall i, i < 512 -> f i = enc lpa2 l (e i).

Record table_ok (gh : ghost) (x : s2ctx) (rd : N) (l : Z) (t a : N) (g : granule) : Prop := {
  t_state : g_state g = RTT;
  t_level_ok : (s2_sl x <= l <= 3)%Z;
  t_words : exists f, g_mem g = CW f /\ words_ok (enable_lpa2 x) l f (ent gh a);
  t_ref : g_ref g = cnt (ent gh a);
  t_entries : forall i, i < 512 -> entry_ok gh x rd l (512 * t + i) (ent gh a i);
  t_parent : (l = s2_sl x /\ t < num_root_rtts x /\ a = g_rtt x + t * 4096) \/
             ((s2_sl x < l)%Z /\ t < ipan x (l - 1) /\
              exists b, own gh b = Some (rd, (l - 1)%Z, t / 512) /\ ent gh b (t mod 512) = ETable a)
}.

Definition rd_ok (c : cfg) (d : rdesc) : Prop :=
  ctx_ok (rd_ctx d) /\ rd_state d <= 2 /\ vmid (rd_ctx d) < vmid_count c /\
  rd_num_rec_aux d = MAX_REC_AUX_GRANULES.

(** The request of RSI_IPA_STATE_SET kept in a REC; base and top are 0 when there
    is none *)
Definition req_ok (d : rdesc) (q : set_ripas_req) : Prop :=
  sr_top q <= realm_par_size d /\ sr_addr q mod 4096 = 0 /\ sr_top q mod 4096 = 0 /\
  ((sr_base q = 0 /\ sr_top q = 0) \/ (sr_base q <= sr_addr q /\ sr_addr q <= sr_top q)).

(** The part of a REC that commands rely on *)
Definition rec_ok (c : cfg) (d : rdesc) (rc : recd) : Prop :=
  r_ctx rc = rd_ctx d /\ r_idx rc < rd_rec_count d /\
  r_vttbr rc = realm_vttbr (rd_ctx d) /\ r_vtcr rc = realm_vtcr c (rd_ctx d) /\
  (exists m, rec_mpidr_is_valid m = true /\ rec_mpidr_to_idx m = r_idx rc /\
     r_sys rc VMPIDR_EL2 = N.lor (rec_mpidr_to_mpidr m) VMPIDR_EL2_RES1) /\
  r_pmu_enabled rc = rd_pmu_enabled d /\ r_pmu_num_ctrs rc = rd_pmu_num_ctrs d /\
  r_algorithm rc = rd_algorithm d /\ r_simd rc = rd_simd d /\
  length (r_aux rc) = 16%nat /\ NoDup (r_aux rc) /\
  req_ok d (r_set_ripas rc).

Record Inv (c : cfg) (gh : ghost) (G : N -> granule) (V : N -> bool) : Prop := {
  i_gran : forall a, g_state (G a) <> NS -> find_granule c a = true;
  i_ns : forall a, g_state (G a) = NS -> g_ref (G a) = 0 /\ exists f, g_mem (G a) = CW f;
  i_del : forall a, g_state (G a) = DELEGATED -> G a = mkG DELEGATED 0 czero;
  i_kinds : forall a, match g_state (G a) with PDEV | PDEV_AUX | VDEV | VDEV_AUX => False | _ => True end;
  (* data granules *)
  i_data : forall a, g_state (G a) = DATA ->
    g_ref (G a) = 0 /\ (exists f, g_mem (G a) = CW f) /\ dmap gh a <> None;
  i_dmap : forall a rd p, dmap gh a = Some (rd, p) -> g_state (G a) = DATA /\
    exists l b pa, own gh b = Some (rd, l, p / pg l / 512) /\
      asg (ent gh b ((p / pg l) mod 512)) = Some pa /\ a = pa + (p mod pg l) * 4096;
  (* realm descriptors and tables *)
  i_rd : forall a, g_state (G a) = RD -> exists d, g_mem (G a) = CRd d /\ rd_ok c d /\
    g_ref (G a) = N.of_nat (length (recs gh a));
  i_root : forall a d k, is_rd G a d -> k < num_root_rtts (rd_ctx d) ->
    own gh (g_rtt (rd_ctx d) + k * 4096) = Some (a, s2_sl (rd_ctx d), k);
  i_rtt : forall a, g_state (G a) = RTT -> own gh a <> None;
  i_own : forall a rd l t, own gh a = Some (rd, l, t) ->
    exists d, is_rd G rd d /\ table_ok gh (rd_ctx d) rd l t a (G a);
  (* VMIDs *)
  i_vmid : forall v, V v = true -> exists rd d, is_rd G rd d /\ vmid (rd_ctx d) = v;
  i_vmid_set : forall rd d, is_rd G rd d -> V (vmid (rd_ctx d)) = true;
  i_vmid_inj : forall rd d rd' d', is_rd G rd d -> is_rd G rd' d' ->
    vmid (rd_ctx d) = vmid (rd_ctx d') -> rd = rd';
  (* RECs *)
  i_rec : forall a, g_state (G a) = REC -> g_ref (G a) <= 1 /\
    exists rc d, g_mem (G a) = CRec rc /\ is_rd G (r_g_rd rc) d /\ rec_ok c d rc /\ In a (recs gh (r_g_rd rc)) /\
      forall x, In x (r_aux rc) -> auxo gh x = Some a;
  i_recs : forall rd a, In a (recs gh rd) -> exists rc, is_rec G a rc /\ r_g_rd rc = rd;
  i_recs_nodup : forall rd, NoDup (recs gh rd) /\ N.of_nat (length (recs gh rd)) <= REFCOUNT_MAX;
  i_idx : forall a rc a' rc', is_rec G a rc -> is_rec G a' rc' -> r_g_rd rc = r_g_rd rc' ->
    r_idx rc = r_idx rc' -> a = a';
  i_aux : forall a, g_state (G a) = REC_AUX -> g_ref (G a) = 0 /\ (exists f, g_mem (G a) = CW f) /\ auxo gh a <> None;
  i_auxo : forall a r, auxo gh a = Some r -> g_state (G a) = REC_AUX /\ exists rc, is_rec G r rc /\ In a (r_aux rc)
}.

(* ------------------------------------------------------------------ *)
(** * Arithmetic of levels *)

Lemma idx512_in : forall i, In i idx512 <-> i < 512.
Proof.
  intro i. unfold idx512. rewrite in_map_iff. split.
  - intros (k & <- & H). apply in_seq in H. lia.
  - intro H. exists (N.to_nat i). split; [lia|]. apply in_seq. lia.
Qed.
Lemma idx512_nodup : NoDup idx512.
Proof. unfold idx512. apply Injective_map_NoDup; [intros a b; lia|apply seq_NoDup]. Qed.
Lemma idx512_len : length idx512 = 512%nat.
Proof. reflexivity. Qed.

Lemma forallb_idx512 : forall f, forallb f idx512 = true <-> forall i, i < 512 -> f i = true.
Proof.
  intro f. rewrite forallb_forall. split; intros H i Hi; apply H; apply idx512_in; assumption.
Qed.

Lemma lvl_lsb_pred : forall l, (l <= 3)%Z -> lvl_lsb (l - 1) = lvl_lsb l + 9.
Proof. intros. unfold lvl_lsb. lia. Qed.
Lemma ms_pred : forall l, (l <= 3)%Z -> ms (l - 1) = 512 * ms l.
Proof.
  intros l H. unfold s2tte_map_size. rewrite lvl_lsb_pred, N.pow_add_r by assumption.
  change (2 ^ 9) with 512. lia.
Qed.
Lemma ms_3 : ms 3 = 4096. Proof. reflexivity. Qed.
Lemma ms_pos : forall l, 0 < ms l. Proof. intro. apply pow2_pos. Qed.
Lemma pg_pos : forall l, 0 < pg l. Proof. intro. apply pow2_pos. Qed.
Lemma pg_3 : pg 3 = 1. Proof. reflexivity. Qed.
Lemma pg_pred : forall l, (l <= 3)%Z -> pg (l - 1) = 512 * pg l.
Proof.
  intros l H. unfold pg. replace (Z.to_N ((3 - (l - 1)) * 9)) with (Z.to_N ((3 - l) * 9) + 9) by lia.
  rewrite N.pow_add_r. change (2 ^ 9) with 512. lia.
Qed.
Lemma pg_succ : forall l, (l < 3)%Z -> pg l = 512 * pg (l + 1).
Proof. intros l H. rewrite <- pg_pred by lia. f_equal. lia. Qed.
Lemma ms_succ : forall l, (l < 3)%Z -> ms l = 512 * ms (l + 1).
Proof. intros l H. rewrite <- ms_pred by lia. f_equal. lia. Qed.
Lemma ms_pg : forall l, (l <= 3)%Z -> ms l = pg l * 4096.
Proof.
  intros l H. unfold pg, s2tte_map_size, lvl_lsb. replace (Z.to_N ((3 - l) * 9 + 12)) with (Z.to_N ((3 - l) * 9) + 12) by lia.
  rewrite N.pow_add_r. reflexivity.
Qed.

(** The entry of a level that translates an address or holds a page *)
Lemma num_pred : forall a l, (l <= 3)%Z -> a / ms (l - 1) = a / ms l / 512.
Proof.
  intros a l H. pose proof (ms_pos l). rewrite ms_pred, N.mul_comm, N.div_div by (assumption || lia). reflexivity.
Qed.
Lemma num_succ : forall a l, (l < 3)%Z -> a / ms l = a / ms (l + 1) / 512.
Proof. intros a l H. rewrite <- num_pred by lia. do 2 f_equal. lia. Qed.
Lemma pnum_pred : forall p l, (l <= 3)%Z -> p / pg (l - 1) = p / pg l / 512.
Proof.
  intros a l H. pose proof (pg_pos l). rewrite pg_pred, N.mul_comm, N.div_div by (assumption || lia). reflexivity.
Qed.
Lemma pnum_succ : forall p l, (l < 3)%Z -> p / pg l = p / pg (l + 1) / 512.
Proof. intros a l H. rewrite <- pnum_pred by lia. do 2 f_equal. lia. Qed.
Lemma pmod_succ : forall p l, (l < 3)%Z ->
  p mod pg l = ((p / pg (l + 1)) mod 512) * pg (l + 1) + p mod pg (l + 1).
Proof.
  intros p l H. rewrite (pg_succ l) by assumption. pose proof (pg_pos (l + 1)).
  rewrite (N.mul_comm 512), N.mod_mul_r by lia. lia.
Qed.
Lemma num_page : forall a l, (l <= 3)%Z -> a / ms l = a / 4096 / pg l.
Proof.
  intros a l H. pose proof (pg_pos l). rewrite ms_pg, N.mul_comm, N.div_div by (assumption || lia). reflexivity.
Qed.

Lemma addr_to_idx_num : forall a l, (-1 <= l <= 3)%Z -> a < 2 ^ 52 -> s2_addr_to_idx a l = (a / ms l) mod 512.
Proof.
  intros a l Hl Ha. unfold s2_addr_to_idx. rewrite N.shiftr_div_pow2. fold (ms l).
  change S2TT_MIN_STARTING_LEVEL with 0%Z. destruct (Z.ltb_spec l 0).
  - assert (l = (-1)%Z) as -> by lia. change S2TTE_STRIDE_LM1 with 4.
    rewrite <- N.pred_sub, <- N.ones_equiv, N.land_ones.
    change (ms (-1)) with (2 ^ 48). assert (a / 2 ^ 48 < 16).
    { apply N.div_lt_upper_bound; [discriminate|]. change (2 ^ 48 * 16) with (2 ^ 52). assumption. }
    change (2 ^ 4) with 16. rewrite !N.mod_small; [reflexivity|lia|assumption].
  - change S2TTE_STRIDE with 9. rewrite <- N.pred_sub, <- N.ones_equiv, N.land_ones. reflexivity.
Qed.

(* ------------------------------------------------------------------ *)
(** * Sizes of the address space of a realm *)

Section Ctx.
Variable x : s2ctx.
Hypothesis X : ctx_ok x.

Lemma ctx_sl : (-1 <= s2_sl x <= 2)%Z.
Proof.
  destruct X as (H & _). unfold min_starting_level in H.
  change S2TT_MIN_STARTING_LEVEL_LPA2 with (-1)%Z in H. change S2TT_MIN_STARTING_LEVEL with 0%Z in H.
  destruct (enable_lpa2 x); lia.
Qed.
Lemma ctx_min : (min_starting_level (enable_lpa2 x) <= s2_sl x)%Z.
Proof. apply X. Qed.
Lemma ctx_bits52 : ipa_bits x <= 52.
Proof.
  destruct X as (_ & _ & H & _). unfold oa_bits, S2TTE_OA_BITS, S2TTE_OA_BITS_LPA2 in H. destruct (enable_lpa2 x); lia.
Qed.
Lemma ctx_lsb : forall l, (s2_sl x <= l <= 3)%Z -> lvl_lsb l < ipa_bits x.
Proof.
  intros l Hl. destruct X as (_ & H & _). pose proof (lvl_lsb_mono (s2_sl x) l ltac:(lia)). lia.
Qed.

Lemma parn_succ : forall l, (s2_sl x <= l < 3)%Z -> parn x (l + 1) = 512 * parn x l.
Proof.
  intros l Hl. pose proof (ctx_lsb l ltac:(lia)). unfold parn.
  assert (lvl_lsb l = lvl_lsb (l + 1) + 9) by (rewrite <- lvl_lsb_pred by lia; f_equal; lia).
  replace (ipa_bits x - 1 - lvl_lsb (l + 1)) with (ipa_bits x - 1 - lvl_lsb l + 9) by lia.
  rewrite N.pow_add_r. change (2 ^ 9) with 512. lia.
Qed.
Lemma ipan_succ : forall l, (s2_sl x <= l < 3)%Z -> ipan x (l + 1) = 512 * ipan x l.
Proof. intros l Hl. unfold ipan. rewrite parn_succ by assumption. lia. Qed.

Lemma parn_ms : forall l, (s2_sl x <= l <= 3)%Z -> parn x l * ms l = 2 ^ (ipa_bits x - 1).
Proof.
  intros l Hl. pose proof (ctx_lsb l Hl). unfold parn, s2tte_map_size. rewrite <- N.pow_add_r. f_equal. lia.
Qed.
Lemma ipan_ms : forall l, (s2_sl x <= l <= 3)%Z -> ipan x l * ms l = 2 ^ ipa_bits x.
Proof.
  intros l Hl. unfold ipan. rewrite <- N.mul_assoc, parn_ms by assumption.
  rewrite <- N.pow_succ_r'. f_equal. pose proof (ctx_lsb l Hl). lia.
Qed.
Lemma num_parn : forall l a, (s2_sl x <= l <= 3)%Z -> a / ms l < parn x l <-> a < 2 ^ (ipa_bits x - 1).
Proof.
  intros l a Hl. rewrite <- (parn_ms l Hl). pose proof (ms_pos l). split; intro H1.
  - apply N.lt_le_trans with (ms l * (a / ms l + 1)).
    + pose proof (N.div_mod a (ms l)). pose proof (N.mod_lt a (ms l)). lia.
    + rewrite N.mul_comm. apply N.mul_le_mono_r. lia.
  - apply N.div_lt_upper_bound; lia.
Qed.
Lemma num_ipan : forall l a, (s2_sl x <= l <= 3)%Z -> a / ms l < ipan x l <-> a < 2 ^ ipa_bits x.
Proof.
  intros l a Hl. rewrite <- (ipan_ms l Hl). pose proof (ms_pos l). split; intro H1.
  - apply N.lt_le_trans with (ms l * (a / ms l + 1)).
    + pose proof (N.div_mod a (ms l)). pose proof (N.mod_lt a (ms l)). lia.
    + rewrite N.mul_comm. apply N.mul_le_mono_r. lia.
  - apply N.div_lt_upper_bound; lia.
Qed.

Lemma root_count : ipan x (s2_sl x) <= 512 * num_root_rtts x.
Proof.
  destruct X as (H1 & H2 & H3 & H4 & H5). rewrite H5. unfold s2_num_root_rtts.
  pose proof ctx_sl.
  replace (Z.to_N ((3 - s2_sl x) * 9 + 12 + 9)) with (lvl_lsb (s2_sl x) + 9) by (unfold lvl_lsb; lia).
  unfold ipan, parn. rewrite <- N.pow_succ_r'. replace (N.succ (ipa_bits x - 1 - lvl_lsb (s2_sl x))) with (ipa_bits x - lvl_lsb (s2_sl x)) by lia.
  destruct (N.leb_spec (ipa_bits x) (lvl_lsb (s2_sl x) + 9)).
  - rewrite N.mul_1_r. change 512 with (2 ^ 9). apply pow2_le. lia.
  - change 512 with (2 ^ 9). rewrite <- N.pow_add_r. apply pow2_le. lia.
Qed.
Lemma root_pos : 0 < num_root_rtts x.
Proof.
  destruct X as (_ & _ & _ & _ & H5). rewrite H5. unfold s2_num_root_rtts.
  destruct (_ <=? _); [reflexivity|apply pow2_pos].
Qed.
Lemma root_le16 : num_root_rtts x <= 16.
Proof.
  destruct X as (H1 & H2 & H3 & H4 & H5). rewrite H5. unfold s2_num_root_rtts. pose proof ctx_sl.
  replace (Z.to_N ((3 - s2_sl x) * 9 + 12 + 9)) with (lvl_lsb (s2_sl x) + 9) by (unfold lvl_lsb; lia).
  destruct (_ <=? _); [lia|]. change 16 with (2 ^ 4). apply pow2_le. lia.
Qed.
End Ctx.

(* ------------------------------------------------------------------ *)
(** * Counting *)

Lemma cnt_ext : forall f g, (forall i, i < 512 -> counted (f i) = counted (g i)) -> cnt f = cnt g.
Proof.
  intros f g H. unfold cnt. do 2 f_equal. apply filter_ext_in. intros i Hi. apply H, idx512_in, Hi.
Qed.
Lemma filter_len_le : forall A (p : A -> bool) l, (length (filter p l) <= length l)%nat.
Proof. intros. induction l; cbn; [lia|]. destruct (p a); cbn; lia. Qed.
Lemma cnt_le : forall f, cnt f <= 512.
Proof.
  intro f. unfold cnt. pose proof (filter_len_le _ (fun i => counted (f i)) idx512) as H.
  rewrite idx512_len in H. lia.
Qed.
Lemma cnt_0 : forall f, cnt f = 0 <-> forall i, i < 512 -> counted (f i) = false.
Proof.
  intro f. unfold cnt. split.
  - intros H i Hi. destruct (counted (f i)) eqn:C; [|reflexivity].
    assert (I : In i (filter (fun i => counted (f i)) idx512)) by (apply filter_In; split; [apply idx512_in; assumption|assumption]).
    destruct (filter _ idx512); [destruct I|cbn in H; lia].
  - intro H. destruct (filter (fun i => counted (f i)) idx512) as [|i r] eqn:F; [reflexivity|].
    assert (I : In i (filter (fun i => counted (f i)) idx512)) by (rewrite F; left; reflexivity).
    apply filter_In in I. destruct I as [I C]. apply idx512_in in I. rewrite H in C by assumption. discriminate.
Qed.
Lemma filter_all : forall A (p : A -> bool) l, length (filter p l) = length l -> forall x, In x l -> p x = true.
Proof.
  intros A p l. induction l; cbn; intros H x Hx; [contradiction|].
  pose proof (filter_len_le _ p l). destruct (p a) eqn:P.
  - destruct Hx as [->|Hx]; [assumption|]. cbn in H. apply IHl; [lia|assumption].
  - lia.
Qed.
Lemma cnt_512 : forall f, cnt f = 512 <-> forall i, i < 512 -> counted (f i) = true.
Proof.
  intro f. unfold cnt. split.
  - intros H i Hi. apply (filter_all _ (fun i => counted (f i)) idx512); [rewrite idx512_len; lia|].
    apply idx512_in. assumption.
  - intro H.
    assert (E : filter (fun i => counted (f i)) idx512 = idx512).
    { assert (G : forall l, (forall i, In i l -> i < 512) -> filter (fun i => counted (f i)) l = l).
      { induction l; cbn; intro K; [reflexivity|]. rewrite H by (apply K; left; reflexivity).
        f_equal. apply IHl. intros; apply K; right; assumption. }
      apply G. intros i. apply idx512_in. }
    rewrite E, idx512_len. reflexivity.
Qed.

Lemma filter_upd : forall (f : N -> entry) i e l, NoDup l ->
  N.of_nat (length (filter (fun j => counted (upd f i e j)) l)) + (if in_dec N.eq_dec i l then N.b2n (counted (f i)) else 0) =
  N.of_nat (length (filter (fun j => counted (f j)) l)) + (if in_dec N.eq_dec i l then N.b2n (counted e) else 0).
Proof.
  intros f i e l. induction l as [|a l IH]; intro ND; cbn [filter]; [reflexivity|].
  inversion ND as [|? ? Na ND']; subst. specialize (IH ND').
  destruct (in_dec N.eq_dec i (a :: l)) as [I|I]; destruct (in_dec N.eq_dec i l) as [I'|I'].
  - assert (a <> i) by (intro; subst; contradiction). rewrite upd_other by assumption.
    destruct (counted (f a)); cbn [length]; lia.
  - destruct I as [->|]; [|contradiction]. rewrite upd_same.
    destruct (counted e), (counted (f i)); cbn [length N.b2n]; lia.
  - exfalso. apply I. right. assumption.
  - assert (a <> i) by (intro; subst; apply I; left; reflexivity). rewrite upd_other by assumption.
    destruct (counted (f a)); cbn [length]; lia.
Qed.
Lemma cnt_upd : forall f i e, i < 512 -> cnt (upd f i e) + N.b2n (counted (f i)) = cnt f + N.b2n (counted e).
Proof.
  intros f i e Hi. pose proof (filter_upd f i e idx512 idx512_nodup) as H. apply idx512_in in Hi.
  destruct (in_dec N.eq_dec i idx512); [exact H|contradiction].
Qed.
Lemma cnt_lt : forall f i, i < 512 -> counted (f i) = false -> cnt f < 512.
Proof.
  intros f i Hi C. pose proof (cnt_le f). destruct (N.eq_dec (cnt f) 512) as [E|]; [|lia].
  rewrite cnt_512 in E. rewrite E in C by assumption. discriminate.
Qed.
Lemma cnt_pos : forall f i, i < 512 -> counted (f i) = true -> 0 < cnt f.
Proof.
  intros f i Hi C. destruct (N.eq_dec (cnt f) 0) as [E|]; [|lia].
  rewrite cnt_0 in E. rewrite E in C by assumption. discriminate.
Qed.
