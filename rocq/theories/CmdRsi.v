(** Effect of the services for realms: the walks of runtime/core and runtime/rsi *)
From Coq Require Import NArith ZArith List Bool Lia ZifyBool ZifyN.
From Verif Require Import Bits S2tte S2tteFacts State Granule Wp RecFields Measure RmiGranule RmiRtt RmiRealm Psci RmiRec
  Gic Esr Rsi RecRun Inv InvTree InvStep InvStep2 InvStep3 Effects CmdLib CmdRtt CmdFold CmdRtt2 CmdNs CmdData CmdRipas.
Import ListNotations.
Local Open Scope N_scope.

(** The RIPAS of the pages an entry describes *)
Definition e_ripas (e : entry) : ripas :=
  match e with
  | EUnRam | EAsRam _ => RAM
  | EUnDestr | EAsDestr _ => DESTROYED
  | _ => EMPTY
  end.

Section Rsi.
Variables (c : cfg) (gh : ghost) (G : N -> granule) (V : N -> bool).
Hypothesis C : cfg_ok c.
Hypothesis I : Inv c gh G V.

Lemma rec_par_eq : forall rc d, r_ctx rc = rd_ctx d -> is_rd G (r_g_rd rc) d -> rec_par_size rc = 2 ^ (ipa_bits (rd_ctx d) - 1).
Proof.
  intros rc d E R. unfold rec_par_size, rec_ipa_size. rewrite E. pose proof (inv_ctx _ _ _ _ I _ _ R) as X.
  pose proof (ctx_lsb _ X 3 ltac:(pose proof (ctx_sl _ X); lia)).
  rewrite N.shiftr_div_pow2, (pow2_split (ipa_bits (rd_ctx d)) 1) by lia. rewrite N.div_mul by discriminate. reflexivity.
Qed.

Lemma leaf_dmap : forall rd d p l b e pa, is_rd G rd d -> Leaf gh rd p l b e -> asg e = Some pa ->
  dmap gh (pa + (p mod pg l) * 4096) = Some (rd, p) /\ (s2_sl (rd_ctx d) <= l <= 3)%Z /\ p < parn (rd_ctx d) 3.
Proof.
  intros rd d p l b e pa R (O & E & T) A. pose proof (inv_own _ _ _ _ I _ _ _ _ _ O R) as TO.
  pose proof (inv_ctx _ _ _ _ I _ _ R) as X.
  pose proof (t_entries _ _ _ _ _ _ _ TO _ (mod512_lt (p / pg l))) as EO. rewrite E, <- div512 in EO.
  pose proof (t_level_ok _ _ _ _ _ _ _ TO) as Hl.
  assert (K : p / pg l < parn (rd_ctx d) l /\ dmap gh (pa + (p mod pg l) * 4096) = Some (rd, p)).
  { destruct EO as [_ EO]. destruct e; try discriminate; injection A as ->; destruct EO as [K1 K2]; (split; [exact K1|apply K2; reflexivity]). }
  split; [apply K|]. split; [exact Hl|]. destruct K as [K _].
  assert (Em : p / pg l = p * 4096 / ms l) by (rewrite num_page, N.div_mul by (discriminate || lia); reflexivity).
  rewrite Em in K. apply (num_parn _ X) in K; [|exact Hl].
  assert (p = p * 4096 / ms 3) as -> by (rewrite ms_3, N.div_mul; [reflexivity|discriminate]).
  apply (num_parn _ X); [pose proof (ctx_sl _ X); lia|exact K].
Qed.

(** A page of the realm with RIPAS RAM and a granule assigned to it *)
Lemma wp_ipa_to_pa : forall E rc d ipa L S T (Q : _ -> state -> Prop),
  is_rd G (r_g_rd rc) d -> r_ctx rc = rd_ctx d -> (forall a, g_state (G a) = RTT -> L a = false) -> S SLOT_RTT = false ->
  (ipa mod 4096 <> 0 \/ 2 ^ (ipa_bits (rd_ctx d) - 1) <= ipa -> Q WInvalid (mkS L S G V T)) ->
  (forall l b pa g L' S', ipa mod 4096 = 0 -> ipa < 2 ^ (ipa_bits (rd_ctx d) - 1) ->
     Leaf gh (r_g_rd rc) (ipa / 4096) l b (EAsRam pa) -> g = pa + (ipa / 4096) mod pg l * 4096 ->
     dmap gh g = Some (r_g_rd rc, ipa / 4096) -> (s2_sl (rd_ctx d) <= l <= 3)%Z ->
     (forall z, L' z = upd L b true z) -> (forall z, S' z = S z) -> Q (WOk b g l) (mkS L' S' G V T)) ->
  (forall l b e L' S', ipa mod 4096 = 0 -> ipa < 2 ^ (ipa_bits (rd_ctx d) - 1) ->
     Leaf gh (r_g_rd rc) (ipa / 4096) l b e -> (forall pa, e <> EAsRam pa) -> (s2_sl (rd_ctx d) <= l <= 3)%Z ->
     (forall z, L' z = L z) -> (forall z, S' z = S z) -> Q (WFail (e_ripas e) l) (mkS L' S' G V T)) ->
  wp E (realm_ipa_to_pa c rc ipa) (mkS L S G V T) Q.
Proof.
  intros E rc d ipa L S T Q R Ex HL HS H1 H2 H3. unfold realm_ipa_to_pa, is_aligned_granule, addr_in_rec_par.
  rewrite (rec_par_eq rc d Ex R), Ex. set (x := rd_ctx d) in *. change GRANULE_SIZE with 4096.
  destruct (negb (ipa mod 4096 =? 0) || negb (ipa <? 2 ^ (ipa_bits x - 1))) eqn:B.
  { apply wp_ret, H1. lia. }
  assert (Al : ipa mod 4096 = 0) by lia. assert (Hp : ipa < 2 ^ (ipa_bits x - 1)) by lia. clear B H1.
  set (rd := r_g_rd rc) in *.
  pose proof (inv_ctx _ _ _ _ I _ _ R) as X. fold x in X. pose proof (ctx_sl _ X) as SL. pose proof (ctx_min _ X) as MIN.
  assert (Ha : ipa < 2 ^ ipa_bits x) by (eapply N.lt_le_trans; [exact Hp|apply pow2_le; lia]).
  change S2TT_PAGE_LEVEL with 3%Z.
  apply (wp_lock_walk_keep _ _ _ _ I _ _ rd d); try assumption; try (fold x; lia).
  intros wi L2 S2 HL2 HS2 W.
  destruct (walk_at _ _ _ _ I _ _ _ _ _ R W) as (f & e & A & Hwl & NT). fold x in A, Hwl.
  pose proof (ae_valid _ _ _ _ _ _ _ _ _ _ A) as VE. pose proof (ae_mem _ _ _ _ _ _ _ _ _ _ A) as Ml.
  pose proof (ae_f _ _ _ _ _ _ _ _ _ _ A) as Hf. pose proof (ae_lt _ _ _ _ _ _ _ _ _ _ A) as Hi.
  assert (T3 : is_table_e e = false).
  { destruct (Z.eq_dec (w_level wi) 3) as [E3|]; [|apply NT; lia]. rewrite E3 in VE. destruct e; try reflexivity. destruct VE. lia. }
  assert (LF : Leaf gh rd (ipa / 4096) (w_level wi) (w_llt wi) e).
  { unfold Leaf. rewrite <- num_page by lia. split; [apply A|]. split; [|exact T3].
    rewrite <- (ae_i _ _ _ _ _ _ _ _ _ _ A). symmetry. apply A. }
  apply wp_bind, wp_map_slot; [side|].
  apply wp_bind. eapply wp_rd_word; [exact Ml|]. rewrite Hf.
  rewrite (is_assigned_ram_enc _ _ _ VE), (is_unassigned_destroyed_enc _ _ _ VE), (is_assigned_destroyed_enc _ _ _ VE), (is_unassigned_ram_enc _ _ _ VE).
  assert (NR : (forall pa, e <> EAsRam pa) -> forall v, v = e_ripas e -> 
     wp E (out <- (granule_unlock (w_llt wi) ;;; Ret (WFail v (w_level wi))) ;; unmap_slot SLOT_RTT ;;; Ret out)
       (mkS L2 (upd S2 SLOT_RTT true) G V T) Q).
  { intros Ne v ->. apply wp_bind, wp_bind, wp_granule_unlock; [rewrite HL2; apply upd_same|apply (inv_uok _ _ _ _ I)|]. apply wp_ret.
    apply wp_bind, wp_unmap_slot; [side|]. apply wp_ret.
    apply (H3 (w_level wi) (w_llt wi) e); try assumption.
    - intro z. unfold upd. destruct (N.eqb_spec z (w_llt wi)) as [->|]; [symmetry; apply HL; apply A|]. rewrite HL2. unfold upd. destruct (N.eqb_spec z (w_llt wi)); [contradiction|reflexivity].
    - lk. }
  destruct e; cbn iota; cbn [orb]; try (apply NR; [discriminate|reflexivity]).
  apply wp_bind, wp_bind, wp_s2tte_pa; [lia|exact (is_live_enc _ _ _ VE)|]. rewrite (pa_enc _ _ _ VE). apply wp_ret.
  apply wp_bind, wp_unmap_slot; [side|]. apply wp_ret.
  destruct (leaf_dmap _ _ _ _ _ _ _ R LF eq_refl) as (D & _ & _).
  replace (pa + N.land ipa (ms (w_level wi) - 1)) with (pa + (ipa / 4096) mod pg (w_level wi) * 4096).
  - apply (H2 (w_level wi) (w_llt wi) pa); try assumption; try reflexivity. lk.
  - f_equal. unfold s2tte_map_size at 1. rewrite <- N.pred_sub, <- N.ones_equiv, N.land_ones. fold (ms (w_level wi)).
    rewrite ms_pg, (N.mul_comm (pg _)) by lia. pose proof (pg_pos (w_level wi)).
    rewrite N.mod_mul_r by lia. rewrite Al. lia.
Qed.

Lemma ripas_loop_spec : forall rd d l t b f start end_ i0, is_rd G rd d -> own gh b = Some (rd, l, t) ->
  words_ok (enable_lpa2 (rd_ctx d)) l f (ent gh b) -> start = (512 * t + i0) * ms l -> end_ <= 2 ^ (ipa_bits (rd_ctx d) - 1) ->
  forall fuel i res, i + N.of_nat fuel <= 512 -> i0 <= i -> (512 * t + i) * ms l < end_ ->
  (forall j, i0 <= j -> j < i -> is_table_e (ent gh b j) = false /\ e_ripas (ent gh b j) = res) ->
  exists m v, ripas_loop fuel f i start ((512 * t + i) * ms l) (ms l) end_ l res = Some ((512 * t + i + m) * ms l, v) /\ m <= N.of_nat fuel /\
    (i0 < i + m -> forall j, i0 <= j -> j < i + m -> is_table_e (ent gh b j) = false /\ e_ripas (ent gh b j) = v) /\
    ((0 < fuel)%nat -> i = i0 -> is_table_e (ent gh b i0) = false -> 1 <= m).
Proof.
  intros rd d l t b f start end_ i0 R O W Es He. pose proof (inv_own _ _ _ _ I _ _ _ _ _ O R) as TO.
  pose proof (inv_ctx _ _ _ _ I _ _ R) as X. pose proof (t_level_ok _ _ _ _ _ _ _ TO) as Hl. pose proof (ms_pos l) as MP.
  induction fuel as [|fuel IH]; intros i res Hf Hi Ha Pre.
  - exists 0, res. rewrite !N.add_0_r. split; [reflexivity|]. split; [lia|]. split; [intros _; exact Pre|lia].
  - cbn [ripas_loop].
    pose proof (t_entries _ _ _ _ _ _ _ TO i ltac:(lia)) as [VE EO].
    rewrite (W i ltac:(lia)), (has_ripas_enc _ _ _ VE), (is_assigned_ram_enc _ _ _ VE).
    assert (Hn : 512 * t + i < parn (rd_ctx d) l).
    { rewrite <- (N.div_mul (512 * t + i) (ms l)) by lia. apply num_parn; try assumption. lia. }
    assert (K : is_table_e (ent gh b i) = false ->
      (if match ent gh b i with EAsRam _ => true | _ => false end then Some RAM else s2tte_get_ripas (enc (enable_lpa2 (rd_ctx d)) l (ent gh b i))) = Some (e_ripas (ent gh b i))).
    { intro T. pose proof (get_ripas_enc _ _ _ VE) as GR. destruct (ent gh b i); try discriminate; try exact GR; try reflexivity; lia. }
    destruct (is_table_e (ent gh b i)) eqn:T.
    { assert (negb match ent gh b i with EUnNs | EAsNs _ _ | ETable _ => false | _ => true end = true) as -> by (destruct (ent gh b i); try discriminate; reflexivity).
      exists 0, res. rewrite !N.add_0_r. split; [reflexivity|]. split; [lia|]. split; [intros _; exact Pre|]. intros _ -> T0. congruence. }
    assert (negb match ent gh b i with EUnNs | EAsNs _ _ | ETable _ => false | _ => true end = false) as ->.
    { destruct (ent gh b i); try discriminate; try reflexivity; lia. }
    rewrite (K eq_refl). clear K.
    assert (ST : (512 * t + i) * ms l =? start = (i =? i0)).
    { rewrite Es. destruct (N.eqb_spec i i0) as [->|n]; [apply N.eqb_refl|]. apply N.eqb_neq. intro Z. apply N.mul_cancel_r in Z; lia. }
    rewrite ST. assert (Em : (512 * t + i) * ms l + ms l = (512 * t + (i + 1)) * ms l) by ring. rewrite Em.
    assert (ripas_eqb (e_ripas (ent gh b i)) res = true -> e_ripas (ent gh b i) = res) as RQ
      by (destruct (e_ripas (ent gh b i)), res; (discriminate || reflexivity)).
    destruct ((i =? i0) || ripas_eqb (e_ripas (ent gh b i)) res) eqn:B.
    + set (res' := if i =? i0 then e_ripas (ent gh b i) else res).
      assert (Pre' : forall j, i0 <= j -> j < i + 1 -> is_table_e (ent gh b j) = false /\ e_ripas (ent gh b j) = res').
      { intros j J1 J2. unfold res'. destruct (N.eqb_spec i i0) as [E0|n0].
        - assert (j = i) as -> by lia. auto.
        - destruct (N.eq_dec j i) as [->|]; [split; [exact T|]|apply Pre; lia]. cbn [orb] in B. exact (RQ B). }
      destruct (N.leb_spec end_ ((512 * t + (i + 1)) * ms l)) as [Hend|Hend].
      * exists 1, res'. split; [do 3 f_equal; lia|]. split; [lia|]. split; [intros _; exact Pre'|lia].
      * destruct (IH (i + 1) res' ltac:(lia) ltac:(lia) Hend Pre') as (m & v & E1 & Em1 & E2 & _).
        exists (m + 1), v. split; [rewrite E1; do 3 f_equal; lia|]. split; [lia|]. split; [|lia].
        intros H. replace (i + (m + 1)) with (i + 1 + m) in * by lia. exact (E2 H).
    + exists 0, res. rewrite !N.add_0_r. split; [reflexivity|]. split; [lia|]. split; [intros _; exact Pre|]. intros _ E0. rewrite E0, N.eqb_refl in B. discriminate.
Qed.

(** RSI_IPA_STATE_GET: all pages from [start] to the returned address have the
    returned RIPAS *)
Lemma wp_get_ripas : forall E rc d start end_ L S T (Q : _ -> state -> Prop),
  is_rd G (r_g_rd rc) d -> r_ctx rc = rd_ctx d -> (forall a, g_state (G a) = RTT -> L a = false) -> S SLOT_RTT = false ->
  start mod 4096 = 0 -> end_ mod 4096 = 0 -> start < end_ -> end_ <= 2 ^ (ipa_bits (rd_ctx d) - 1) ->
  (forall top v L' S', start < top -> top mod 4096 = 0 ->
     (forall p, start / 4096 <= p -> p < top / 4096 -> exists l b e, Leaf gh (r_g_rd rc) p l b e /\ e_ripas e = v) ->
     (forall z, L' z = L z) -> (forall z, S' z = S z) -> Q (Some (top, v)) (mkS L' S' G V T)) ->
  wp E (realm_ipa_get_ripas c rc start end_) (mkS L S G V T) Q.
Proof.
  intros E rc d start end_ L S T Q R Ex HL HS As Ae Hse He HQ. unfold realm_ipa_get_ripas, is_aligned_granule, addr_in_rec_par.
  rewrite (rec_par_eq rc d Ex R), Ex. set (x := rd_ctx d) in *. change GRANULE_SIZE with 4096.
  apply wp_bind, wp_assert; [lia|]. apply wp_bind, wp_assert; [lia|].
  set (rd := r_g_rd rc) in *.
  pose proof (inv_ctx _ _ _ _ I _ _ R) as X. fold x in X. pose proof (ctx_sl _ X) as SL. pose proof (ctx_min _ X) as MIN.
  assert (Hp : start < 2 ^ (ipa_bits x - 1)) by lia.
  assert (Ha : start < 2 ^ ipa_bits x) by (eapply N.lt_le_trans; [exact Hp|apply pow2_le; lia]).
  change S2TT_PAGE_LEVEL with 3%Z.
  apply (wp_lock_walk_keep _ _ _ _ I _ _ rd d); try assumption; try (fold x; lia).
  intros wi L2 S2 HL2 HS2 W.
  destruct (walk_at _ _ _ _ I _ _ _ _ _ R W) as (f & e & A & Hwl & NT). fold x in A, Hwl.
  pose proof (ae_valid _ _ _ _ _ _ _ _ _ _ A) as VE. pose proof (ae_mem _ _ _ _ _ _ _ _ _ _ A) as Ml.
  pose proof (ae_lt _ _ _ _ _ _ _ _ _ _ A) as Hi.
  assert (T3 : is_table_e e = false).
  { destruct (Z.eq_dec (w_level wi) 3) as [E3|]; [|apply NT; lia]. rewrite E3 in VE. destruct e; try reflexivity. destruct VE. lia. }
  apply wp_bind, wp_map_slot; [side|].
  apply wp_bind. eapply wp_get_table; [exact Ml|]. cbv zeta.
  pose proof (walk_n gh _ _ _ _ W) as WN. pose proof (ae_own _ _ _ _ _ _ _ _ _ _ A) as O.
  set (l := w_level wi) in *. set (i := w_index wi) in *. set (t := start / ms l / 512) in *.
  pose proof (ms_pos l) as MP.
  assert (Est : start - N.land start (ms l - 1) = (512 * t + i) * ms l).
  { unfold s2tte_map_size at 1. rewrite <- N.pred_sub, <- N.ones_equiv, N.land_ones. fold (ms l). rewrite WN. pose proof (N.div_mod start (ms l)). lia. }
  rewrite Est.
  assert (Bl : (512 * t + i) * ms l <= start) by (rewrite WN; pose proof (N.div_mod start (ms l)); lia).
  destruct (ripas_loop_spec rd d l t (w_llt wi) f _ end_ i R O (ae_words _ _ _ _ _ _ _ _ _ _ A) eq_refl He (N.to_nat (512 - i)) i EMPTY)
    as (m & v & EL & Hmf & P1 & P2); try lia.
  rewrite EL.
  assert (Hm : 1 <= m) by (apply P2; [lia|reflexivity|]; rewrite <- (ae_e _ _ _ _ _ _ _ _ _ _ A); exact T3).
  specialize (P1 ltac:(lia)).
  apply wp_bind, wp_unmap_slot; [side|].
  apply wp_bind, wp_granule_unlock; [rewrite HL2; apply upd_same|apply (inv_uok _ _ _ _ I)|]. apply wp_ret.
  assert (NE : (512 * t + i + m) * ms l =? (512 * t + i) * ms l = false) by (apply N.eqb_neq; intro Z; apply N.mul_cancel_r in Z; lia).
  rewrite NE. cbn [negb].
  assert (M4 : ms l = pg l * 4096) by (apply ms_pg; lia).
  apply HQ.
  - rewrite N.mul_add_distr_r, WN. assert (ms l <= m * ms l) by (rewrite <- (N.mul_1_l (ms l)) at 1; apply N.mul_le_mono_r; exact Hm).
    pose proof (N.div_mod start (ms l)). pose proof (N.mod_lt start (ms l)). lia.
  - rewrite M4, N.mul_assoc. apply N.mod_mul. discriminate.
  - intros p P3 P4. exists l, (w_llt wi), (ent gh (w_llt wi) ((p / pg l) mod 512)).
    pose proof (pg_pos l) as PP.
    rewrite M4, N.mul_assoc, N.div_mul in P4 by discriminate.
    assert (Hlo : 512 * t + i <= p / pg l). { rewrite WN, num_page by lia. apply N.div_le_mono; lia. }
    assert (Hhi : p / pg l < 512 * t + i + m) by (apply N.div_lt_upper_bound; lia).
    assert (i + m <= 512) by lia.
    assert (D : p / pg l / 512 = t /\ i <= (p / pg l) mod 512 /\ (p / pg l) mod 512 < i + m).
    { clear -Hlo Hhi H. set (k := p / pg l) in *. clearbody k t i. lia. }
    destruct D as (D1 & D2 & D3).
    destruct (P1 ((p / pg l) mod 512) D2 D3) as (Q1 & Q2).
    split; [|exact Q2]. split; [rewrite D1; exact O|]. split; [reflexivity|exact Q1].
  - intro z. unfold upd. destruct (N.eqb_spec z (w_llt wi)) as [->|]; [symmetry; apply HL; apply A|]. rewrite HL2. unfold upd. destruct (N.eqb_spec z (w_llt wi)); [contradiction|reflexivity].
  - lk.
Qed.
End Rsi.
