(** RTT_INIT_RIPAS and RTT_SET_RIPAS *)
From Coq Require Import NArith ZArith List Bool Lia ZifyBool ZifyN.
From Verif Require Import Bits S2tte S2tteFacts State Granule Wp RecFields Measure RmiGranule RmiRtt RmiRealm Psci RmiRec
  Inv InvTree InvStep InvStep2 InvStep3 Effects CmdLib CmdRtt CmdFold CmdRtt2 CmdData.
Import ListNotations.
Local Open Scope N_scope.

(** The change [u] made to [m] consecutive entries [n], [n + 1], ... of a
    table, the first of which is entry [i] of the table *)
Definition chg (rd : N) (l : Z) (u : entry -> entry) (es : N -> entry) (n i : N) (m : nat) : list label :=
  map (fun k => LEntry rd l (n + N.of_nat k) (es (i + N.of_nat k)) (u (es (i + N.of_nat k)))) (seq 0 m).

Lemma chg_S : forall rd l u es n i m,
  chg rd l u es n i (S m) = LEntry rd l n (es i) (u (es i)) :: chg rd l u es (n + 1) (i + 1) m.
Proof.
  intros. unfold chg. cbn [seq map]. f_equal.
  - change (N.of_nat 0) with 0. rewrite !N.add_0_r. reflexivity.
  - rewrite <- seq_shift, map_map. apply map_ext. intro k.
    replace (n + N.of_nat (S k)) with (n + 1 + N.of_nat k) by lia.
    replace (i + N.of_nat (S k)) with (i + 1 + N.of_nat k) by lia. reflexivity.
Qed.
Lemma chg_ext : forall rd l u es es' n i m, (forall j, i <= j -> j < i + N.of_nat m -> es j = es' j) ->
  chg rd l u es n i m = chg rd l u es' n i m.
Proof.
  intros. unfold chg. apply map_ext_in. intros k Hk. apply in_seq in Hk. rewrite H by lia. reflexivity.
Qed.

(** Entries RTT_INIT_RIPAS accepts, and what it makes of them *)
Definition init_e (e : entry) : bool := match e with EUnEmpty | EUnRam => true | _ => false end.
Definition init_u (e : entry) : entry := match e with EUnEmpty => EUnRam | _ => e end.
(** The measurement after [m] entries of size [size] *)
Fixpoint init_rim (c : cfg) (alg size : N) (m : nat) (addr rim : N) : N :=
  match m with
  | O => rim
  | S m => init_rim c alg size m (addr + size) (measurement_init_ripas_measure c rim alg addr (addr + size))
  end.

(** Entries RTT_SET_RIPAS accepts, and what it makes of them *)
Definition set_e (ripas change : N) (e : entry) : bool :=
  match e with
  | EUnNs | EAsNs _ _ | ETable _ => false
  | EUnDestr | EAsDestr _ => (change =? CHANGE_DESTROYED) || negb ((ripas =? RIPAS_RAM) || (ripas =? RIPAS_EMPTY))
  | _ => true
  end.
Definition set_u (ripas : N) (e : entry) : entry :=
  if ripas =? RIPAS_RAM then
    match e with
    | EUnEmpty | EUnDestr => EUnRam
    | EAsEmpty pa | EAsDestr pa => EAsRam pa
    | _ => e
    end
  else if ripas =? RIPAS_EMPTY then
    match e with
    | EUnRam | EUnDestr => EUnEmpty
    | EAsRam pa | EAsDestr pa => EAsEmpty pa
    | _ => e
    end
  else e.
(** Entries for which RTT_SET_RIPAS invalidates the TLB *)
Definition set_t (ripas : N) (e : entry) : bool :=
  (ripas =? RIPAS_EMPTY) && match e with EAsRam _ | EAsDestr _ => true | _ => false end.
Fixpoint set_inv (v ripas size : N) (es : N -> entry) (m : nat) (i addr : N) : list (N * N * N) :=
  match m with
  | O => []
  | S m => (if set_t ripas (es i) then [(v, addr, 4096)] else []) ++ set_inv v ripas size es m (i + 1) (addr + size)
  end.
Lemma set_inv_ext : forall v ripas size es es' m i addr, (forall j, i <= j -> j < i + N.of_nat m -> es j = es' j) ->
  set_inv v ripas size es m i addr = set_inv v ripas size es' m i addr.
Proof.
  intros v ripas size es es' m. induction m; intros i addr H; cbn [set_inv]; [reflexivity|].
  rewrite H by lia. f_equal. apply IHm. intros. apply H; lia.
Qed.

Lemma set_u_facts : forall ripas e, is_table_e (set_u ripas e) = is_table_e e /\ asg (set_u ripas e) = asg e.
Proof. intros. unfold set_u. destruct (ripas =? RIPAS_RAM), (ripas =? RIPAS_EMPTY); destruct e; split; reflexivity. Qed.
Lemma set_u_ok : forall gh x rd l n ripas e, entry_ok gh x rd l n e -> n < parn x l -> entry_ok gh x rd l n (set_u ripas e).
Proof.
  intros gh x rd l n ripas e [V H] Hn. unfold set_u. destruct (ripas =? RIPAS_RAM), (ripas =? RIPAS_EMPTY);
    destruct e; (split; [exact V|]); auto; exact H.
Qed.
Lemma init_u_facts : forall e, is_table_e (init_u e) = is_table_e e /\ asg (init_u e) = asg e.
Proof. intros []; split; reflexivity. Qed.
Lemma init_u_ok : forall gh x rd l n e, entry_ok gh x rd l n e -> n < parn x l -> entry_ok gh x rd l n (init_u e).
Proof. intros gh x rd l n e [V H] Hn. destruct e; (split; [exact V|]); auto; exact H. Qed.

Lemma wp_update_ripas : forall E x l e ripas change s (Q : upd_ripas -> state -> Prop),
  (min_starting_level (enable_lpa2 x) <= l <= 3)%Z -> valid_entry (enable_lpa2 x) l e ->
  (set_e ripas change e = false -> Q UErr s) ->
  (set_e ripas change e = true -> set_u ripas e = e -> set_t ripas e = false -> Q UNone s) ->
  (set_e ripas change e = true -> Q (UOk (enc (enable_lpa2 x) l (set_u ripas e)) (set_t ripas e)) s) ->
  wp E (update_ripas x (enc (enable_lpa2 x) l e) l ripas change) s Q.
Proof.
  intros E x l e ripas change s Q Hl VE QE QN QO. unfold update_ripas.
  rewrite (has_ripas_enc _ _ _ VE).
  rewrite (is_unassigned_empty_enc _ _ _ VE), (is_unassigned_ram_enc _ _ _ VE), (is_unassigned_destroyed_enc _ _ _ VE),
    (is_assigned_empty_enc _ _ _ VE), (is_assigned_ram_enc _ _ _ VE), (is_assigned_destroyed_enc _ _ _ VE).
  pose proof (pa_enc _ _ _ VE) as PE. pose proof (is_live_enc _ _ _ VE) as LE.
  unfold set_e, set_u, set_t in *.
  assert (OKP : forall pa, pa_ok (enable_lpa2 x) l pa -> block_level l -> create_assigned_ok x pa l = true).
  { intros pa P B. unfold create_assigned_ok, block_level_b. change S2TT_MIN_BLOCK_LEVEL with 1%Z. change S2TT_PAGE_LEVEL with 3%Z.
    assert (s2tte_is_addr_lvl_aligned (enable_lpa2 x) pa l = true) as ->
      by (unfold block_level in B; apply addr_lvl_aligned_iff; [lia|exact P]). unfold block_level in B. lia. }
  destruct (N.eqb_spec ripas RIPAS_RAM) as [->|]; [|destruct (N.eqb_spec ripas RIPAS_EMPTY) as [->|]];
    cbn [N.eqb RIPAS_RAM RIPAS_EMPTY Pos.eqb andb orb negb] in *; rewrite ?orb_true_r, ?orb_false_r in *;
    destruct e; cbv zeta; cbn iota; cbn [negb];
    try (destruct (change =? CHANGE_DESTROYED));
    solve [ apply wp_ret; first [ apply QE; reflexivity | apply QN; reflexivity | apply QO; reflexivity ]
          | apply wp_bind, wp_s2tte_pa; [lia|exact LE|]; rewrite PE;
            apply wp_bind, wp_assert; [apply OKP; apply VE|]; apply wp_ret; apply QO; reflexivity ].
Qed.

Section Loop.
Variables (c : cfg) (V : N -> bool) (rd : N) (d : rdesc) (l : Z) (t llt : N) (top : N).
Let x := rd_ctx d.

Record ltab (gh : ghost) (G : N -> granule) (f : N -> N) : Prop := {
  lt_inv : Inv c gh G V;
  lt_own : own gh llt = Some (rd, l, t);
  lt_rd : is_rd G rd d;
  lt_mem : g_mem (G llt) = CW f
}.

Lemma lt_ok : forall gh G f, ltab gh G f -> table_ok gh x rd l t llt (G llt) /\ words_ok (enable_lpa2 x) l f (ent gh llt).
Proof.
  intros gh G f [I O R M]. pose proof (inv_own _ _ _ _ I _ _ _ _ _ O R) as TT. split; [exact TT|].
  destruct (t_words _ _ _ _ _ _ _ TT) as (f' & M' & W). rewrite M in M'. injection M' as <-. exact W.
Qed.

Lemma lt_step : forall gh G f i e' w, ltab gh G f -> i < 512 -> is_table_e (ent gh llt i) = false -> is_table_e e' = false ->
  asg (ent gh llt i) = asg e' -> entry_ok gh x rd l (512 * t + i) e' -> w = enc (enable_lpa2 x) l e' ->
  let gh' := set_ent gh llt (upd (ent gh llt) i e') in
  let G' := upd G llt (mkG (g_state (G llt)) (g_ref (G llt)) (CW (upd f i w))) in
  geff c gh G V (LEntry rd l (512 * t + i) (ent gh llt i) e') gh' G' V /\ ltab gh' G' (upd f i w).
Proof.
  intros gh G f i e' w LT Hi T1 T2 A EO Ew gh' G'. destruct (lt_ok _ _ _ LT) as [TT W].
  destruct LT as [I O R M]. pose proof (t_state _ _ _ _ _ _ _ TT) as St.
  assert (ne : llt <> rd) by (intro; subst; destruct R; congruence).
  assert (GE : geff c gh G V (LEntry rd l (512 * t + i) (ent gh llt i) e') gh' G' V).
  { eapply g_entry; try eassumption.
    - eapply words_upd; [exact W|reflexivity|exact Ew].
    - unfold G'. updsimp. rewrite St. reflexivity.
    - intros z nz. unfold G'. updsimp. reflexivity. }
  split; [exact GE|]. constructor.
  - eapply geff_inv; eassumption.
  - exact O.
  - destruct R. split; unfold G'; updsimp; assumption.
  - unfold G'. updsimp. reflexivity.
Qed.
Lemma lt_same : forall gh G f i e', ltab gh G f -> i < 512 -> is_table_e (ent gh llt i) = false -> e' = ent gh llt i ->
  let gh' := set_ent gh llt (upd (ent gh llt) i e') in
  geff c gh G V (LEntry rd l (512 * t + i) (ent gh llt i) e') gh' G V /\ ltab gh' G f.
Proof.
  intros gh G f i e' LT Hi T1 -> gh'. destruct (lt_ok _ _ _ LT) as [TT W]. destruct LT as [I O R M].
  assert (GE : geff c gh G V (LEntry rd l (512 * t + i) (ent gh llt i) (ent gh llt i)) gh' G V).
  { eapply g_entry; try eassumption; try reflexivity.
    - apply (t_entries _ _ _ _ _ _ _ TT i Hi).
    - instantiate (1 := f). intros j Hj. unfold upd. destruct (N.eqb_spec j i) as [->|]; apply W; assumption.
    - pose proof (t_state _ _ _ _ _ _ _ TT) as St. destruct (G llt); cbn in *. congruence. }
  split; [exact GE|]. constructor; try assumption. eapply geff_inv; eassumption.
Qed.

Definition loop_res (gh : ghost) (G : N -> granule) (u : entry -> entry) (i : N) (m : nat) (gh' : ghost) (G' : N -> granule) : Prop :=
  geffs c gh G V (chg rd l u (ent gh llt) (512 * t + i) i m) gh' G' V /\
  (forall z, z <> llt -> G' z = G z) /\ g_state (G' llt) = RTT /\ g_ref (G' llt) = g_ref (G llt).

Lemma loop_res_0 : forall gh G f u i, ltab gh G f -> loop_res gh G u i 0 gh G.
Proof.
  intros gh G f u i LT. destruct (lt_ok _ _ _ LT) as [TT _]. split; [apply gs_nil; reflexivity|]. split; [reflexivity|].
  split; [apply TT|reflexivity].
Qed.
Lemma loop_res_S : forall gh G u i m e' G1 gh' G',
  let gh1 := set_ent gh llt (upd (ent gh llt) i e') in
  u (ent gh llt i) = e' ->
  geff c gh G V (LEntry rd l (512 * t + i) (ent gh llt i) e') gh1 G1 V ->
  (forall z, z <> llt -> G1 z = G z) -> g_ref (G1 llt) = g_ref (G llt) ->
  loop_res gh1 G1 u (i + 1) m gh' G' -> loop_res gh G u i (S m) gh' G'.
Proof.
  intros gh G u i m e' G1 gh' G' gh1 Eu GE F1 Rf (GS & F2 & St & Rf2). split; [|split; [|split]].
  - rewrite chg_S, Eu. eapply gs_cons; [exact GE|].
    rewrite (chg_ext rd l u (ent gh llt) (ent gh1 llt)).
    + replace (512 * t + i + 1) with (512 * t + (i + 1)) by lia. exact GS.
    + intros j Hj _. unfold gh1, set_ent. cbn [ent]. rewrite upd_same, upd_other by lia. reflexivity.
  - intros z nz. rewrite F2, F1 by assumption. reflexivity.
  - exact St.
  - congruence.
Qed.

Hypothesis Hlv : (min_starting_level (enable_lpa2 x) <= l <= 3)%Z.
Hypothesis Htop : top <= 2 ^ (ipa_bits x - 1).
Hypothesis X : ctx_ok x.

Lemma n_par : forall gh G f i, ltab gh G f -> (512 * t + i) * ms l + ms l <= top -> 512 * t + i < parn x l.
Proof.
  intros gh G f i LT H. destruct (lt_ok _ _ _ LT) as [TT _].
  rewrite <- (N.div_mul (512 * t + i) (ms l)) by (pose proof (ms_pos l); lia).
  apply num_parn; [assumption|apply TT|]. pose proof (ms_pos l). lia.
Qed.
Lemma top_52 : top <= 2 ^ 52.
Proof. etransitivity; [exact Htop|]. apply pow2_le. pose proof (ctx_bits52 _ X). lia. Qed.
Lemma lv_low : (-1 <= l)%Z.
Proof. unfold min_starting_level, S2TT_MIN_STARTING_LEVEL_LPA2, S2TT_MIN_STARTING_LEVEL in Hlv. destruct (enable_lpa2 x); lia. Qed.
Lemma wrap_next : forall addr, addr <= 2 ^ 52 -> wrap64 (addr + ms l) = addr + ms l.
Proof.
  intros addr H. pose proof (ms_le l lv_low). unfold wrap64. apply N.mod_small.
  change (2 ^ 64) with (2 ^ 52 * 4096). change (2 ^ 52) with (2 ^ 48 * 16) in *. lia.
Qed.

Lemma wp_init_loop : forall alg fuel gh G f i addr rim L S T, ltab gh G f -> i + N.of_nat fuel <= 512 ->
  addr = (512 * t + i) * ms l -> addr <= 2 ^ 52 ->
  wp False (init_ripas_loop fuel c llt alg top (ms l) i addr rim) (mkS L S G V T) (fun o s' =>
    exists m gh' G', s' = mkS L S G' V T /\ (m <= fuel)%nat /\ fst o = addr + N.of_nat m * ms l /\
      (m = 0%nat \/ fst o <= top) /\ snd o = init_rim c alg (ms l) m addr rim /\
      loop_res gh G init_u i m gh' G' /\
      (forall k, k < N.of_nat m -> init_e (ent gh llt (i + k)) = true) /\
      (m = fuel \/ top < addr + (N.of_nat m + 1) * ms l \/ init_e (ent gh llt (i + N.of_nat m)) = false)).
Proof.
  intros alg fuel. induction fuel as [|fuel IH]; intros gh G f i addr rim L S T LT Hf Ea Hb; cbn [init_ripas_loop].
  - apply wp_ret. exists 0%nat, gh, G. split; [reflexivity|]. split; [lia|]. cbn [fst snd].
    split; [lia|]. split; [auto|]. split; [reflexivity|]. split; [eapply loop_res_0; exact LT|]. split; [intros; lia|auto].
  - cbv zeta. rewrite wrap_next by assumption.
    assert (STOP : (top < addr + 1 * ms l \/ init_e (ent gh llt (i + 0)) = false) ->
      wp False (Ret (addr, rim)) (mkS L S G V T) (fun o s' =>
    exists m gh' G', s' = mkS L S G' V T /\ (m <= Datatypes.S fuel)%nat /\ fst o = addr + N.of_nat m * ms l /\
      (m = 0%nat \/ fst o <= top) /\ snd o = init_rim c alg (ms l) m addr rim /\
      loop_res gh G init_u i m gh' G' /\
      (forall k, k < N.of_nat m -> init_e (ent gh llt (i + k)) = true) /\
      (m = Datatypes.S fuel \/ top < addr + (N.of_nat m + 1) * ms l \/ init_e (ent gh llt (i + N.of_nat m)) = false))).
    { intro W. apply wp_ret. exists 0%nat, gh, G. split; [reflexivity|]. split; [lia|]. cbn [fst snd].
      split; [lia|]. split; [auto|]. split; [reflexivity|]. split; [eapply loop_res_0; exact LT|]. split; [intros; lia|]. right. exact W. }
    destruct (N.ltb_spec top (addr + ms l)) as [Hn|Hn].
    { apply STOP. left. lia. }
    destruct (lt_ok _ _ _ LT) as [TT W]. assert (Hi : i < 512) by lia.
    pose proof (t_entries _ _ _ _ _ _ _ TT i Hi) as EO. pose proof (proj1 EO) as VE.
    assert (Hp : 512 * t + i < parn x l) by (eapply n_par; [exact LT|rewrite <- Ea; exact Hn]).
    apply wp_bind. eapply wp_rd_word; [exact (lt_mem _ _ _ LT)|].
    rewrite (W i Hi), (is_unassigned_empty_enc _ _ _ VE), (is_unassigned_ram_enc _ _ _ VE).
    assert (NX : addr + ms l <= 2 ^ 52) by (pose proof top_52; lia).
    assert (NE : addr + ms l = (512 * t + (i + 1)) * ms l) by lia.
    assert (GO : forall e' gh1 G1 f1 rim', rim' = measurement_init_ripas_measure c rim alg addr (addr + ms l) ->
      init_e (ent gh llt i) = true -> init_u (ent gh llt i) = e' -> gh1 = set_ent gh llt (upd (ent gh llt) i e') ->
      geff c gh G V (LEntry rd l (512 * t + i) (ent gh llt i) e') gh1 G1 V -> ltab gh1 G1 f1 ->
      (forall z, z <> llt -> G1 z = G z) -> g_ref (G1 llt) = g_ref (G llt) ->
      wp False (init_ripas_loop fuel c llt alg top (ms l) (i + 1) (addr + ms l) rim') (mkS L S G1 V T) (fun o s' =>
    exists m gh' G', s' = mkS L S G' V T /\ (m <= Datatypes.S fuel)%nat /\ fst o = addr + N.of_nat m * ms l /\
      (m = 0%nat \/ fst o <= top) /\ snd o = init_rim c alg (ms l) m addr rim /\
      loop_res gh G init_u i m gh' G' /\
      (forall k, k < N.of_nat m -> init_e (ent gh llt (i + k)) = true) /\
      (m = Datatypes.S fuel \/ top < addr + (N.of_nat m + 1) * ms l \/ init_e (ent gh llt (i + N.of_nat m)) = false))).
    { intros e' gh1 G1 f1 rim' -> Ie Ue -> GE LT1 F1 R1.
      eapply wp_conseq; [apply (IH (set_ent gh llt (upd (ent gh llt) i e')) G1 f1 (i + 1) (addr + ms l)); [exact LT1|lia|exact NE|exact NX]|auto|].
      intros o s' (m & gh' & G' & E1 & E2 & E3 & E4 & E5 & E6 & E7 & E8).
      assert (EQ : forall j, i + 1 <= j -> ent (set_ent gh llt (upd (ent gh llt) i e')) llt j = ent gh llt j).
      { intros j Hj. unfold set_ent. cbn [ent]. rewrite upd_same, upd_other by lia. reflexivity. }
      exists (Datatypes.S m), gh', G'. split; [exact E1|]. split; [lia|]. split; [lia|]. split; [lia|].
      split; [exact E5|]. split; [eapply loop_res_S; try eassumption|]. split.
      - intros k Hk. destruct (N.eq_dec k 0) as [->|]; [rewrite N.add_0_r; exact Ie|].
        specialize (E7 (k - 1) ltac:(lia)). rewrite EQ in E7 by lia. replace (i + 1 + (k - 1)) with (i + k) in E7 by lia. exact E7.
      - destruct E8 as [E8|[E8|E8]]; [left; lia|right; left; lia|]. right. right.
        rewrite EQ in E8 by lia. replace (i + 1 + N.of_nat m) with (i + N.of_nat (Datatypes.S m)) in E8 by lia. exact E8. }
    destruct (init_u_facts (ent gh llt i)) as [U1 U2]. pose proof (init_u_ok _ _ _ _ _ _ EO Hp) as U3.
    destruct (ent gh llt i) as [| | | |pa|pa|pa|at_ pa|b] eqn:Ee; cbn [negb];
      try (apply STOP; right; rewrite N.add_0_r, Ee; reflexivity).
    + apply wp_bind. eapply wp_wr_word; [exact (lt_mem _ _ _ LT)|].
      destruct (lt_step gh G f i EUnRam s2tte_create_unassigned_ram LT Hi) as [GE LT1]; rewrite ?Ee; try reflexivity; try assumption.
      eapply (GO EUnRam); [reflexivity|rewrite ?Ee; reflexivity|rewrite ?Ee; reflexivity|reflexivity|rewrite <- Ee; exact GE|exact LT1| |]; intros; updsimp; reflexivity.
    + destruct (lt_same gh G f i EUnRam LT Hi ltac:(rewrite Ee; reflexivity) (eq_sym Ee)) as [GE LT1]. rewrite Ee in GE.
      eapply (GO EUnRam); [reflexivity|rewrite ?Ee; reflexivity|rewrite ?Ee; reflexivity|reflexivity|exact GE|exact LT1| |]; reflexivity.
Qed.

Lemma wp_set_loop : forall ripas change fuel gh G f i addr L S T, ltab gh G f -> i + N.of_nat fuel <= 512 ->
  addr = (512 * t + i) * ms l -> addr <= 2 ^ 52 ->
  wp False (set_ripas_loop fuel x llt l top ripas change i addr) (mkS L S G V T) (fun o s' =>
    exists m gh' G', s' = mkS L S G' V (invals (set_inv (vmid x) ripas (ms l) (ent gh llt) m i addr) T) /\
      (m <= fuel)%nat /\ o = addr + N.of_nat m * ms l /\
      (m = 0%nat \/ o <= top) /\
      loop_res gh G (set_u ripas) i m gh' G' /\
      (forall k, k < N.of_nat m -> set_e ripas change (ent gh llt (i + k)) = true) /\
      (m = fuel \/ top < addr + (N.of_nat m + 1) * ms l \/ set_e ripas change (ent gh llt (i + N.of_nat m)) = false)).
Proof.
  intros ripas change fuel. induction fuel as [|fuel IH]; intros gh G f i addr L S T LT Hf Ea Hb; cbn [set_ripas_loop].
  - apply wp_ret. exists 0%nat, gh, G. split; [reflexivity|]. split; [lia|].
    split; [lia|]. split; [auto|]. split; [eapply loop_res_0; exact LT|]. split; [intros; lia|auto].
  - cbv zeta. rewrite wrap_next by assumption.
    match goal with |- wp _ _ _ ?q => set (Q := q) end.
    assert (STOP : (top < addr + 1 * ms l \/ set_e ripas change (ent gh llt (i + 0)) = false) ->
      wp False (Ret addr) (mkS L S G V T) Q).
    { intro W. apply wp_ret. exists 0%nat, gh, G. split; [reflexivity|]. split; [lia|].
      split; [lia|]. split; [auto|]. split; [eapply loop_res_0; exact LT|]. split; [intros; lia|]. right. exact W. }
    destruct (N.ltb_spec top (addr + ms l)) as [Hn|Hn].
    { apply STOP. left. lia. }
    destruct (lt_ok _ _ _ LT) as [TT W]. assert (Hi : i < 512) by lia.
    pose proof (t_entries _ _ _ _ _ _ _ TT i Hi) as EO. pose proof (proj1 EO) as VE.
    assert (Hp : 512 * t + i < parn x l) by (eapply n_par; [exact LT|rewrite <- Ea; exact Hn]).
    apply wp_bind. eapply wp_rd_word; [exact (lt_mem _ _ _ LT)|]. rewrite (W i Hi).
    assert (NX : addr + ms l <= 2 ^ 52) by (pose proof top_52; lia).
    assert (NE : addr + ms l = (512 * t + (i + 1)) * ms l) by lia.
    set (e' := set_u ripas (ent gh llt i)) in *.
    assert (GO : forall gh1 G1 f1 T1, set_e ripas change (ent gh llt i) = true -> gh1 = set_ent gh llt (upd (ent gh llt) i e') ->
      geff c gh G V (LEntry rd l (512 * t + i) (ent gh llt i) e') gh1 G1 V -> ltab gh1 G1 f1 ->
      (forall z, z <> llt -> G1 z = G z) -> g_ref (G1 llt) = g_ref (G llt) ->
      T1 = invals (if set_t ripas (ent gh llt i) then [(vmid x, addr, 4096)] else []) T ->
      wp False (set_ripas_loop fuel x llt l top ripas change (i + 1) (addr + ms l)) (mkS L S G1 V T1) Q).
    { intros gh1 G1 f1 T1 Ie -> GE LT1 F1 R1 ->.
      eapply wp_conseq; [apply (IH (set_ent gh llt (upd (ent gh llt) i e')) G1 f1 (i + 1) (addr + ms l)); [exact LT1|lia|exact NE|exact NX]|auto|].
      intros o s' (m & gh' & G' & E1 & E2 & E3 & E4 & E6 & E7 & E8).
      assert (EQ : forall j, i + 1 <= j -> ent (set_ent gh llt (upd (ent gh llt) i e')) llt j = ent gh llt j).
      { intros j Hj. unfold set_ent. cbn [ent]. rewrite upd_same, upd_other by lia. reflexivity. }
      exists (Datatypes.S m), gh', G'. split.
      { rewrite E1. f_equal. cbn [set_inv]. unfold invals. rewrite fold_left_app. f_equal.
        apply set_inv_ext. intros j Hj _. apply EQ, Hj. }
      split; [lia|]. split; [lia|]. split; [lia|].
      split; [eapply loop_res_S; try eassumption; reflexivity|]. split.
      - intros k Hk. destruct (N.eq_dec k 0) as [->|]; [rewrite N.add_0_r; exact Ie|].
        specialize (E7 (k - 1) ltac:(lia)). rewrite EQ in E7 by lia. replace (i + 1 + (k - 1)) with (i + k) in E7 by lia. exact E7.
      - destruct E8 as [E8|[E8|E8]]; [left; lia|right; left; lia|]. right. right.
        rewrite EQ in E8 by lia. replace (i + 1 + N.of_nat m) with (i + N.of_nat (Datatypes.S m)) in E8 by lia. exact E8. }
    destruct (set_u_facts ripas (ent gh llt i)) as [U1 U2]. pose proof (set_u_ok _ _ _ _ _ ripas _ EO Hp) as U3.
    assert (NT : set_e ripas change (ent gh llt i) = true -> is_table_e (ent gh llt i) = false).
    { destruct (ent gh llt i); try reflexivity. discriminate. }
    apply wp_bind, wp_update_ripas; [exact Hlv|exact VE| | |].
    + intro N0. apply STOP. right. rewrite N.add_0_r. exact N0.
    + intros Y0 Same Tf. destruct (lt_same gh G f i e' LT Hi (NT Y0) Same) as [GE LT1].
      eapply GO; try reflexivity; try eassumption. rewrite Tf. reflexivity.
    + intro Y0. apply wp_bind. eapply wp_wr_word; [exact (lt_mem _ _ _ LT)|].
      destruct (lt_step gh G f i e' _ LT Hi (NT Y0) ltac:(unfold e'; rewrite U1; apply NT, Y0) (eq_sym U2) U3 eq_refl) as [GE LT1].
      apply wp_bind. destruct (set_t ripas (ent gh llt i)) eqn:St.
      * enough (K : wp False (set_ripas_loop fuel x llt l top ripas change (i + 1) (addr + ms l))
           (mkS L S (upd G llt (mkG (g_state (G llt)) (g_ref (G llt)) (CW (upd f i (enc (enable_lpa2 x) l e'))))) V (tlb_inval (vmid x) addr 4096 T)) Q)
          by (destruct (l =? S2TT_PAGE_LEVEL)%Z; apply wp_tlbi; exact K).
        eapply GO; try reflexivity; try eassumption; intros; updsimp; reflexivity.
      * apply wp_ret. eapply GO; try reflexivity; try eassumption; intros; updsimp; reflexivity.
Qed.
End Loop.

Lemma steps_pos : forall b o m k, o = b + N.of_nat m * k -> b < o -> (1 <= m)%nat.
Proof. intros b o m k -> H. destruct m; [|lia]. cbn [N.of_nat] in H. rewrite N.mul_0_l in H. lia. Qed.
Lemma steps_zero : forall b o m k, o = b + N.of_nat m * k -> o <= b -> 0 < k -> m = 0%nat.
Proof.
  intros b o m k -> H Hk. destruct m; [reflexivity|exfalso].
  assert (1 * k <= N.of_nat (Datatypes.S m) * k) by (apply N.mul_le_mono_r; lia). lia.
Qed.

Section Cmd.
Variables (c : cfg) (gh : ghost) (G : N -> granule) (V : N -> bool).
Hypothesis C : cfg_ok c.
Hypothesis I : Inv c gh G V.
Variables (L S : N -> bool) (T : list tlbe).
Hypothesis HL : free L.
Hypothesis HS : free S.

Lemma par_size : forall rd d, is_rd G rd d -> realm_par_size d = 2 ^ (ipa_bits (rd_ctx d) - 1).
Proof.
  intros rd d R. pose proof (inv_ctx _ _ _ _ I _ _ R) as X. pose proof (ctx_sl _ X).
  pose proof (ctx_lsb _ X 3 ltac:(lia)). unfold realm_par_size, realm_ipa_size. rewrite N.shiftr_div_pow2.
  rewrite (pow2_split (ipa_bits (rd_ctx d)) 1) by lia. rewrite N.div_mul by discriminate. reflexivity.
Qed.
Lemma par_4096 : forall rd d, is_rd G rd d -> 2 ^ (ipa_bits (rd_ctx d) - 1) mod 4096 = 0.
Proof.
  intros rd d R. pose proof (inv_ctx _ _ _ _ I _ _ R) as X. pose proof (ctx_sl _ X) as SL.
  rewrite <- (parn_ms _ X 3) by lia. change (ms 3) with 4096. first [apply N.mod_mul | rewrite N.mul_comm; apply N.mod_mul]; discriminate.
Qed.
Lemma walk_n : forall addr wi (x : s2ctx) rd, walk_res gh x rd addr 3 wi ->
  512 * (addr / ms (w_level wi) / 512) + w_index wi = addr / ms (w_level wi).
Proof. intros addr wi x rd (_ & Ei & _). rewrite Ei. symmetry. apply div512. Qed.
Lemma align_mod : forall a l, N.ldiff a (ms l - 1) = a -> a mod ms l = 0.
Proof. intros a l H. rewrite ldiff_align in H. pose proof (ms_pos l). pose proof (N.div_mod a (ms l)). lia. Qed.

(** The range of entries a RIPAS command works on: [m] entries of the table
    the walk ends at, of which the last is the last before [top], the last of
    the table or the last before one that [acc] does not accept *)
Definition ripas_range (es : N -> entry) (acc : entry -> bool) (l : Z) (i base top out : N) (m : nat) : Prop :=
  (1 <= m)%nat /\ base mod ms l = 0 /\ out = base + N.of_nat m * ms l /\ out <= top /\ i + N.of_nat m <= 512 /\
  (forall k, k < N.of_nat m -> acc (es (i + k)) = true) /\
  (i + N.of_nat m = 512 \/ l = (-1)%Z /\ i + N.of_nat m = 16 \/ top < out + ms l \/ acc (es (i + N.of_nat m)) = false).

Lemma wp_rtt_init_ripas : forall rd base top,
  wp False (smc_rtt_init_ripas c rd base top) (mkS L S G V T) (fun r s' =>
    cmd_post c gh G V T (x0 r)
      (x0 r = RMI_ERROR_INPUT \/ (x0 r = RMI_ERROR_REALM /\ exists d, is_rd G rd d /\ rd_state d <> REALM_NEW) \/
       walk_fail gh G rd base 3 any_e (x0 r))
      (fun gh' labs inv => inv = [] /\ exists d wi m, is_rd G rd d /\ rd_state d = REALM_NEW /\
         base < top /\ base mod 4096 = 0 /\ top mod 4096 = 0 /\ top <= 2 ^ (ipa_bits (rd_ctx d) - 1) /\
         walk_res gh (rd_ctx d) rd base 3 wi /\
         ripas_range (ent gh (w_llt wi)) init_e (w_level wi) (w_index wi) base top (x1 r) m /\
         labs = chg rd (w_level wi) init_u (ent gh (w_llt wi)) (base / ms (w_level wi)) (w_index wi) m ++
                [LRd rd d (set_meas d RIM_MEASUREMENT_SLOT
                   (init_rim c (rd_algorithm d) (ms (w_level wi)) m base (rd_meas d RIM_MEASUREMENT_SLOT)))]) s').
Proof.
  intros rd base top. unfold smc_rtt_init_ripas.
  destruct (N.leb_spec top base) as [Hbt|Hbt].
  { apply wp_ret. apply post_fail; try assumption; try discriminate; try reflexivity; auto. }
  apply wp_bind, wp_find_lock; [apply HL|apply (inv_uok _ _ _ _ I)| |].
  2:{ intros L' HL' _. apply wp_ret. apply post_fail; try assumption; try discriminate; try reflexivity; auto. lk. }
  intros F Sr. cbn [negb].
  apply wp_bind, wp_map_slot; [side|].
  destruct (rd_of_state _ _ _ _ I rd Sr) as (d & R & Ar).
  apply wp_bind. eapply wp_get_rd; [exact Ar|].
  pose proof (inv_ctx _ _ _ _ I _ _ R) as X. pose proof (ctx_sl _ X) as SL. pose proof (ctx_min _ X) as MIN.
  match goal with |- wp _ _ _ ?q => set (Q := q) end.
  assert (FAIL0 : forall code, code = RMI_ERROR_INPUT \/ (code = RMI_ERROR_REALM /\ rd_state d <> REALM_NEW) ->
     wp False (unmap_slot SLOT_RD ;;; granule_unlock rd ;;; Ret (res0 code)) (mkS (upd L rd true) (upd S SLOT_RD true) G V T) Q).
  { intros code Hc. apply wp_bind, wp_unmap_slot; [side|]. apply wp_bind, wp_granule_unlock; [side|apply (inv_uok _ _ _ _ I)|]. apply wp_ret.
    unfold Q. cbn [x0 res0]. apply post_fail; try reflexivity; try lk.
    - destruct Hc as [->|[-> _]]; discriminate.
    - destruct Hc as [->|[-> Hs]]; [auto|]. right. left. split; [reflexivity|]. exists d. auto. }
  change S2TT_PAGE_LEVEL with 3%Z.
  apply wp_bind. eapply (wp_validate_map _ _ _ _ I); [exact R|lia|]. intros b1 Hb1.
  apply wp_bind.
  assert (V2 : forall b2, (b2 = true -> b1 = true /\ top < 2 ^ ipa_bits (rd_ctx d) /\ top mod 4096 = 0) ->
    wp False (let v := b2 && addr_in_par d base && addr_in_par d (wrap64 (top + 2 ^ 64 - GRANULE_SIZE)) in
      if negb v then unmap_slot SLOT_RD ;;; granule_unlock rd ;;; Ret (res0 RMI_ERROR_INPUT)
      else if negb (rd_state d =? REALM_NEW) then
        unmap_slot SLOT_RD ;;; granule_unlock rd ;;; Ret (res0 RMI_ERROR_REALM)
      else
        let x := rd_ctx d in
        granule_lock (g_rtt x) RTT ;;;
        wi <- s2tt_walk_lock_unlock c x base 3 ;;
        let llt := w_llt wi in
        let level := w_level wi in
        map_slot SLOT_RTT ;;;
        let map_size := s2tte_map_size level in
        let addr := N.ldiff base (map_size - 1) in
        out <-
          (if negb (addr =? base) then Ret (res0 (pack_return_code RMI_ERROR_RTT level))
           else
             let n := if (level =? S2TT_MIN_STARTING_LEVEL_LPA2)%Z then S2TTES_PER_S2TT_LM1 else S2TTES_PER_S2TT in
             o <- init_ripas_loop (N.to_nat (n - w_index wi)) c llt (rd_algorithm d) top map_size
                    (w_index wi) addr (rd_meas d RIM_MEASUREMENT_SLOT) ;;
             if base <? fst o then
               put_rd rd (set_meas d RIM_MEASUREMENT_SLOT (snd o)) ;;;
               Ret (mkRes RMI_SUCCESS (fst o) 0 0 0)
             else Ret (res0 (pack_return_code RMI_ERROR_RTT level))) ;;
        unmap_slot SLOT_RTT ;;;
        unmap_slot SLOT_RD ;;;
        granule_unlock llt ;;;
        granule_unlock rd ;;;
        Ret out) (mkS (upd L rd true) (upd S SLOT_RD true) G V T) Q).
  2:{ destruct b1.
      - eapply (wp_validate_map _ _ _ _ I); [exact R|lia|]. intros b2 Hb2. apply V2. intro E2. split; [reflexivity|]. apply Hb2, E2.
      - apply wp_ret. apply V2. discriminate. }
  intros b2 Hb2. cbv zeta.
  pose proof (in_par_iff _ _ _ _ I rd d base R) as IP1.
  pose proof (in_par_iff _ _ _ _ I rd d (wrap64 (top + 2 ^ 64 - GRANULE_SIZE)) R) as IP2.
  destruct (b2 && addr_in_par d base && addr_in_par d (wrap64 (top + 2 ^ 64 - GRANULE_SIZE))) eqn:Vd; cbn [negb]; [|apply FAIL0; auto].
  apply andb_prop in Vd. destruct Vd as [Vd Vd3]. apply andb_prop in Vd. destruct Vd as [Vd1 Vd2].
  destruct (Hb2 Vd1) as (Hb & Htl & Htm). destruct (proj1 Hb1 Hb) as (Ha & Hal). change (ms 3) with 4096 in Hal.
  apply IP1 in Vd2. apply IP2 in Vd3. clear IP1 IP2 Hb1 Hb2.
  assert (Htop : top <= 2 ^ (ipa_bits (rd_ctx d) - 1)).
  { pose proof (par_4096 rd d R) as P4. pose proof (ctx_bits52 _ X) as B52.
    assert (T52 : top < 2 ^ 52) by (eapply N.lt_le_trans; [exact Htl|apply pow2_le; exact B52]).
    assert (W : wrap64 (top + 2 ^ 64 - GRANULE_SIZE) = top - 4096).
    { unfold wrap64. change GRANULE_SIZE with 4096.
      replace (top + 2 ^ 64 - 4096) with (top - 4096 + 1 * 2 ^ 64) by lia. rewrite N.mod_add by discriminate. apply N.mod_small.
      change (2 ^ 64) with (2 ^ 52 * 4096). lia. }
    rewrite W in Vd3. set (P := 2 ^ (ipa_bits (rd_ctx d) - 1)) in *.
    pose proof (N.div_mod top 4096). pose proof (N.div_mod P 4096). lia. }
  destruct (N.eqb_spec (rd_state d) REALM_NEW) as [Nw|Nw]; cbn [negb]; [|apply FAIL0; auto].
  clear FAIL0.
  apply (wp_lock_walk_keep _ _ _ _ I _ _ rd d); try assumption; try lia; try side.
  { intros a Sa. unfold upd. destruct (N.eqb_spec a rd); [congruence|apply HL]. }
  intros wi L2 S2 HL2 HS2 W.
  destruct (walk_at _ _ _ _ I _ _ _ _ _ R W) as (f & e & A & Hwl & NT).
  pose proof (walk_n _ _ _ _ W) as WN.
  set (x := rd_ctx d) in *. set (llt := w_llt wi) in *. set (i := w_index wi) in *. set (l := w_level wi) in *.
  pose proof (ae_st _ _ _ _ _ _ _ _ _ _ A) as Sl.
  assert (n1 : llt <> rd) by congruence.
  pose proof (ae_mem _ _ _ _ _ _ _ _ _ _ A) as Ml. pose proof (ae_lt _ _ _ _ _ _ _ _ _ _ A) as Hi.
  apply wp_bind, wp_map_slot; [side|]. apply wp_bind.
  assert (FAIL : forall L' S' G', (forall z, L' z = L2 z) -> (forall z, S' z = upd S2 SLOT_RTT true z) -> (forall z, G' z = G z) ->
     wp False (unmap_slot SLOT_RTT ;;; unmap_slot SLOT_RD ;;; granule_unlock llt ;;; granule_unlock rd ;;;
               Ret (res0 (pack_return_code RMI_ERROR_RTT l))) (mkS L' S' G' V T) Q).
  { intros L' S' G' HL' HS' HG'. apply wp_bind, wp_unmap_slot; [side|]. apply wp_bind, wp_unmap_slot; [side|].
    apply wp_bind, wp_granule_unlock; [side|rewrite HG'; apply (inv_uok _ _ _ _ I)|].
    apply wp_bind, wp_granule_unlock; [side|rewrite HG'; apply (inv_uok _ _ _ _ I)|]. apply wp_ret.
    unfold Q. cbn [x0 res0]. apply post_fail; try apply pack_nonzero; try reflexivity; try lk; try exact HG'. right. right. exists d, wi. repeat (split; [first [assumption|reflexivity]|]). reflexivity. }
  destruct (N.eqb_spec (N.ldiff base (ms l - 1)) base) as [Eb|]; cbn [negb].
  2:{ apply wp_ret. apply FAIL; reflexivity. }
  rewrite Eb. pose proof (align_mod _ _ Eb) as Hm.
  set (n := if (l =? S2TT_MIN_STARTING_LEVEL_LPA2)%Z then S2TTES_PER_S2TT_LM1 else S2TTES_PER_S2TT).
  assert (Hn : n = 512 \/ (l = (-1)%Z /\ n = 16)).
  { unfold n, S2TT_MIN_STARTING_LEVEL_LPA2, S2TTES_PER_S2TT_LM1, S2TTES_PER_S2TT. destruct (Z.eqb_spec l (-1)); auto. }
  pose proof (ctx_bits52 _ X) as B52.
  assert (Ha52 : base < 2 ^ 52) by (eapply N.lt_le_trans; [exact Ha|apply pow2_le; exact B52]).
  assert (LT : ltab c V rd d l (base / ms l / 512) llt gh G f).
  { constructor; try assumption. exact (ae_own _ _ _ _ _ _ _ _ _ _ A). }
  pose proof (ms_pos l) as MP.
  assert (Eadr : base = (512 * (base / ms l / 512) + i) * ms l).
  { rewrite WN. pose proof (N.div_mod base (ms l)). lia. }
  assert (Hl3 : (min_starting_level (enable_lpa2 x) <= l <= 3)%Z) by lia.
  assert (Hfu : i + N.of_nat (N.to_nat (n - i)) <= 512) by lia.
  apply wp_bind.
  eapply wp_conseq; [apply (wp_init_loop c V rd d l (base / ms l / 512) llt top Hl3 Htop X (rd_algorithm d) _ gh G f); [exact LT|exact Hfu|exact Eadr|lia]|auto|].
  cbv beta. intros [oa orim] s' (m & gh' & G' & -> & Em & Eo & Et & Er & (GS & Fr & St & Rf) & Acc & Stop). cbn [fst snd] in *.
  destruct (N.ltb_spec base oa) as [Hlt|Hge].
  - assert (Hm1 : (1 <= m)%nat) by exact (steps_pos _ _ _ _ Eo Hlt).
    apply wp_bind, wp_put_rd. apply wp_ret.
    apply wp_bind, wp_unmap_slot; [side|]. apply wp_bind, wp_unmap_slot; [side|].
    apply wp_bind, wp_granule_unlock; [side|pose proof (inv_uok _ _ _ _ I llt) as U; unfold uok in *; updsimp; rewrite St, Rf; rewrite Sl in U; exact U|].
    apply wp_bind, wp_granule_unlock; [side| |].
    { pose proof (inv_uok _ _ _ _ I rd) as U; unfold uok in *; updsimp; rewrite Fr by congruence; exact U. }
    apply wp_ret. unfold Q. cbn [x0 x1]. eapply post_ok; [lk|lk| |instantiate (1 := []); reflexivity|].
    + rewrite WN in GS. eapply geffs_app; [exact GS|]. intros G2 V2 HG2 HV2.
      eapply gs_cons; [|apply gs_nil].
      * eapply (g_rd c gh' G2 V2 rd d _ (upd G2 rd (mkG RD (g_ref (G2 rd)) (CRd _)))).
        -- destruct R as [R1 R2]. split; rewrite HG2, Fr by congruence; assumption.
        -- apply set_meas_le. eapply (rd_state_ok _ _ _ _ I); exact R.
        -- updsimp. reflexivity.
        -- intros z nz. updsimp. reflexivity.
      * intro z. destruct (N.eq_dec z rd) as [->|]; updsimp.
        -- rewrite ?HG2, ?Fr by congruence. rewrite Sr. reflexivity.
        -- rewrite ?HG2; reflexivity.
      * intro z. symmetry. apply HV2.
    + split; [reflexivity|]. exists d, wi, m. split; [exact R|]. split; [exact Nw|]. split; [exact Hbt|]. split; [exact Hal|].
      split; [exact Htm|]. split; [exact Htop|]. split; [exact W|]. fold l i llt. split; [|rewrite Er; reflexivity].
      split; [exact Hm1|]. split; [exact Hm|]. split; [exact Eo|]. split; [destruct Et; [lia|assumption]|]. split; [lia|]. split; [exact Acc|].
      destruct Stop as [Stop|[Stop|Stop]].
      * destruct Hn as [Hn|[Hn1 Hn2]]; lia.
      * right. right. left. lia.
      * auto.
  - assert (m = 0%nat) by exact (steps_zero _ _ _ _ Eo Hge MP). subst m. cbn [chg seq map] in GS. apply wp_ret. apply FAIL; try reflexivity.
    inversion GS; subst; assumption.
Qed.

Lemma wp_rtt_set_ripas : forall rd rec base top,
  wp False (smc_rtt_set_ripas c rd rec base top) (mkS L S G V T) (fun r s' =>
    cmd_post c gh G V T (x0 r)
      (x0 r = RMI_ERROR_INPUT \/ x0 r = RMI_ERROR_REC \/ walk_fail gh G rd base 3 any_e (x0 r))
      (fun gh' labs inv => exists d rc wi m, let q := r_set_ripas rc in
         is_rd G rd d /\ is_rec G rec rc /\ r_g_rd rc = rd /\ g_ref (G rec) = 0 /\
         base = sr_addr q /\ base < top /\ top <= sr_top q /\
         walk_res gh (rd_ctx d) rd base 3 wi /\
         ripas_range (ent gh (w_llt wi)) (set_e (sr_ripas q) (sr_change_destroyed q)) (w_level wi) (w_index wi) base top (x1 r) m /\
         labs = chg rd (w_level wi) (set_u (sr_ripas q)) (ent gh (w_llt wi)) (base / ms (w_level wi)) (w_index wi) m ++
                [LRec rec rc (set_req rc (mkReq (sr_base q) (sr_top q) (x1 r) (sr_ripas q) (sr_change_destroyed q) (sr_response q))) 0] /\
         inv = set_inv (vmid (rd_ctx d)) (sr_ripas q) (ms (w_level wi)) (ent gh (w_llt wi)) m (w_index wi) base) s').
Proof.
  intros rd rec base top. unfold smc_rtt_set_ripas.
  destruct (N.leb_spec top base) as [Hbt|Hbt].
  { apply wp_ret. apply post_fail; try assumption; try discriminate; try reflexivity; auto. }
  apply wp_bind, wp_find_lock_two; [assumption|apply (inv_uok _ _ _ _ I)| |].
  2:{ intros L' HL' _. apply wp_ret. apply post_fail; try assumption; try discriminate; try reflexivity; auto. lk. }
  intros L1 HL1 ne F1 F2 Sr Sc. cbn [negb].
  apply wp_bind, wp_refcount_read; [side|].
  match goal with |- wp _ _ _ ?q => set (Q := q) end.
  assert (END : forall code L' S' G', code <> RMI_SUCCESS -> (forall z, L' z = L1 z) -> (forall z, S' z = S z) -> (forall z, G' z = G z) ->
     (code = RMI_ERROR_INPUT \/ code = RMI_ERROR_REC \/ walk_fail gh G rd base 3 any_e code) ->
     wp False (granule_unlock rec ;;; granule_unlock rd ;;; Ret (res0 code)) (mkS L' S' G' V T) Q).
  { intros code L' S' G' nz HL' HS' HG' HF.
    apply wp_bind, wp_granule_unlock; [side|rewrite HG'; apply (inv_uok _ _ _ _ I)|].
    apply wp_bind, wp_granule_unlock; [side|rewrite HG'; apply (inv_uok _ _ _ _ I)|]. apply wp_ret.
    unfold Q. cbn [x0 res0]. apply post_fail; try assumption; try reflexivity; try lk. }
  apply wp_bind. destruct (N.eqb_spec (g_ref (G rec)) 0) as [R0|R0]; cbn [negb].
  2:{ apply wp_ret. apply END; try discriminate; try reflexivity. auto. }
  apply wp_bind, wp_map_slot; [side|].
  destruct (i_rec _ _ _ _ I rec Sc) as (_ & rc & d & Mc & R & RO & _).
  apply wp_bind. eapply wp_get_rec; [rewrite Mc; reflexivity|].
  apply wp_bind. destruct (N.eqb_spec rd (r_g_rd rc)) as [Er|Er]; cbn [negb].
  2:{ apply wp_ret. apply wp_bind, wp_unmap_slot; [side|]. apply wp_ret. apply END; try discriminate; try reflexivity; try lk. auto. }
  rewrite <- Er in R. cbv zeta.
  destruct (negb (base =? sr_addr (r_set_ripas rc)) || (sr_top (r_set_ripas rc) <? top)) eqn:Rq.
  { apply wp_ret. apply wp_bind, wp_unmap_slot; [side|]. apply wp_ret. apply END; try discriminate; try reflexivity; try lk. auto. }
  assert (Eb : base = sr_addr (r_set_ripas rc)) by lia. assert (Ht : top <= sr_top (r_set_ripas rc)) by lia. clear Rq.
  apply wp_bind, wp_map_slot; [side|].
  apply wp_bind. eapply wp_get_rd; [destruct R as [_ M]; rewrite M; reflexivity|].
  pose proof (inv_ctx _ _ _ _ I _ _ R) as X. pose proof (ctx_sl _ X) as SL. pose proof (ctx_min _ X) as MIN.
  pose proof RO as (_ & _ & _ & _ & _ & _ & _ & _ & _ & _ & _ & RQ). destruct RQ as (Q1 & Q2 & Q5 & Q34).
  assert (sr_base (r_set_ripas rc) <= sr_addr (r_set_ripas rc) /\ sr_addr (r_set_ripas rc) <= sr_top (r_set_ripas rc)) as (Q4 & Q3) by (destruct Q34 as [[_ Z0]|Q34]; [rewrite Z0 in Ht|]; lia). clear Q34.
  rewrite (par_size rd d R) in Q1.
  assert (Hp : base < 2 ^ (ipa_bits (rd_ctx d) - 1)) by lia.
  pose proof (par_ipa G rd d base R Hp) as Ha.
  change S2TT_PAGE_LEVEL with 3%Z.
  apply wp_bind. eapply (wp_validate_map _ _ _ _ I); [exact R|lia|]. intros b Hb.
  apply wp_bind, wp_assert; [apply Hb; split; [exact Ha|change (ms 3) with 4096; rewrite Eb; exact Q2]|]. clear b Hb.
  apply (wp_lock_walk_keep _ _ _ _ I _ _ rd d); try assumption; try lia; try side.
  { intros a Sa. rewrite HL1. unfold upd. destruct (N.eqb_spec a rec); [congruence|]. destruct (N.eqb_spec a rd); [congruence|apply HL]. }
  intros wi L2 S2 HL2 HS2 W.
  destruct (walk_at _ _ _ _ I _ _ _ _ _ R W) as (f & e & A & Hwl & NT).
  pose proof (walk_n _ _ _ _ W) as WN.
  set (x := rd_ctx d) in *. set (llt := w_llt wi) in *. set (i := w_index wi) in *. set (l := w_level wi) in *.
  pose proof (ae_st _ _ _ _ _ _ _ _ _ _ A) as Sl.
  assert (n1 : llt <> rd) by congruence. assert (n2 : llt <> rec) by congruence.
  pose proof (ae_mem _ _ _ _ _ _ _ _ _ _ A) as Ml. pose proof (ae_lt _ _ _ _ _ _ _ _ _ _ A) as Hi.
  assert (FAIL : forall L' S' G', (forall z, L' z = L2 z) -> (forall z, S' z = S2 z) -> (forall z, G' z = G z) ->
     wp False (granule_unlock llt ;;; unmap_slot SLOT_RD ;;; Ret (res0 (pack_return_code RMI_ERROR_RTT l))) (mkS L' S' G' V T)
       (fun out s' => wp False (unmap_slot SLOT_REC ;;; Ret out) s' (fun out s' =>
          wp False (granule_unlock rec ;;; granule_unlock rd ;;; Ret out) s' Q))).
  { intros L' S' G' HL' HS' HG'.
    apply wp_bind, wp_granule_unlock; [side|rewrite HG'; apply (inv_uok _ _ _ _ I)|].
    apply wp_bind, wp_unmap_slot; [side|]. apply wp_ret. apply wp_bind, wp_unmap_slot; [side|]. apply wp_ret.
    apply END; try apply pack_nonzero; try lk; try exact HG'. right. right. exists d, wi. repeat (split; [first [assumption|reflexivity]|]). reflexivity. }
  apply wp_bind. eapply (wp_validate_map _ _ _ _ I); [exact R|fold x; lia|]. intros b Hb. fold x in Hb.
  apply wp_bind. destruct b; cbn [negb].
  2:{ apply wp_ret. apply FAIL; reflexivity. }
  destruct (proj1 Hb eq_refl) as (_ & Hm). clear Hb.
  apply wp_bind, wp_map_slot; [side|].
  unfold rtt_set_ripas_range. fold l i llt. cbv zeta.
  pose proof (ms_pos l) as MP.
  assert (N.ldiff base (ms l - 1) = base) as ->.
  { rewrite ldiff_align. pose proof (N.div_mod base (ms l)). lia. }
  rewrite N.eqb_refl. cbn [negb]. change S2TTES_PER_S2TT with 512.
  pose proof (ctx_bits52 _ X) as B52.
  assert (Ha52 : base < 2 ^ 52) by (eapply N.lt_le_trans; [exact Ha|apply pow2_le; exact B52]).
  assert (LT : ltab c V rd d l (base / ms l / 512) llt gh G f).
  { constructor; try assumption. exact (ae_own _ _ _ _ _ _ _ _ _ _ A). }
  assert (Eadr : base = (512 * (base / ms l / 512) + i) * ms l).
  { rewrite WN. pose proof (N.div_mod base (ms l)). lia. }
  assert (Hl3 : (min_starting_level (enable_lpa2 x) <= l <= 3)%Z) by lia.
  assert (Hfu : i + N.of_nat (N.to_nat (512 - i)) <= 512) by lia.
  assert (Htop : top <= 2 ^ (ipa_bits x - 1)) by lia.
  set (q := r_set_ripas rc) in *.
  apply wp_bind, wp_bind.
  eapply wp_conseq; [apply (wp_set_loop c V rd d l (base / ms l / 512) llt top Hl3 Htop X (sr_ripas q) (sr_change_destroyed q) _ gh G f); [exact LT|exact Hfu|exact Eadr|lia]|auto|].
  cbv beta. intros oa s' (m & gh' & G' & -> & Em & Eo & Et & (GS & Fr & St & Rf) & Acc & Stop).
  destruct (N.ltb_spec base oa) as [Hlt|Hge].
  - assert (Hm1 : (1 <= m)%nat) by exact (steps_pos _ _ _ _ Eo Hlt).
    assert (Hoa : oa <= top) by (destruct Et; [lia|assumption]).
    assert (Moa : oa mod 4096 = 0).
    { rewrite Eo, (ms_pg l) by lia. rewrite N.mul_assoc, N.mod_add by discriminate. rewrite Eb. exact Q2. }
    apply wp_ret. cbn [x0 N.eqb RMI_SUCCESS x1].
    set (rc' := set_req _ _).
    apply wp_bind, wp_put_rec. apply wp_bind, wp_unmap_slot; [side|]. apply wp_ret.
    apply wp_bind, wp_granule_unlock; [side|pose proof (inv_uok _ _ _ _ I llt) as U; unfold uok in *; updsimp; rewrite St, Rf; rewrite Sl in U; exact U|].
    apply wp_bind, wp_unmap_slot; [side|]. apply wp_ret. apply wp_bind, wp_unmap_slot; [side|]. apply wp_ret.
    apply wp_bind, wp_granule_unlock; [side| |].
    { pose proof (inv_uok _ _ _ _ I rec) as U; unfold uok in *; updsimp; rewrite Fr by congruence; exact U. }
    apply wp_bind, wp_granule_unlock; [side| |].
    { pose proof (inv_uok _ _ _ _ I rd) as U; unfold uok in *; updsimp; rewrite Fr by congruence; exact U. }
    apply wp_ret. unfold Q. cbn [x0 x1]. eapply post_ok; [lk|lk| |reflexivity|].
    + rewrite WN in GS. eapply geffs_app; [exact GS|]. intros G2 V2 HG2 HV2.
      eapply gs_cons; [|apply gs_nil].
      * eapply (g_rec c gh' G2 V2 rec rc rc' 0 (upd G2 rec (mkG REC 0 (CRec rc')))).
        -- split; rewrite HG2, Fr by congruence; assumption.
        -- reflexivity.
        -- reflexivity.
        -- reflexivity.
        -- intros d0 R2 O2. destruct R as [_ R]. destruct R2 as [_ R2]. rewrite HG2, <- Er, Fr in R2 by congruence. rewrite R in R2. injection R2 as <-.
           unfold rec_ok in *. cbn. destruct O2 as (O1 & O2 & O3 & O4 & O5 & O6 & O7 & O8 & O9 & O10 & O11 & _).
           repeat (split; [assumption|]). unfold req_ok. cbn.
           split; [pose proof (par_size rd d (conj Sr R)) as PS; fold x in PS; rewrite <- PS in Q1; exact Q1|]. split; [exact Moa|]. split; [exact Q5|]. right. split; lia.
        -- lia.
        -- updsimp. reflexivity.
        -- intros z nz. updsimp. reflexivity.
      * intro z. destruct (N.eq_dec z rec) as [->|]; updsimp.
        -- rewrite Fr by congruence. rewrite Sc, R0. reflexivity.
        -- rewrite ?HG2; reflexivity.
      * intro z. symmetry. apply HV2.
    + exists d, rc, wi, m. cbv zeta. fold q l i llt. split; [exact R|]. split; [split; assumption|]. split; [symmetry; exact Er|].
      split; [exact R0|]. split; [exact Eb|]. split; [exact Hbt|]. split; [exact Ht|]. split; [exact W|]. split; [|split; reflexivity].
      split; [exact Hm1|]. split; [exact Hm|]. split; [exact Eo|]. split; [exact Hoa|]. split; [lia|]. split; [exact Acc|].
      destruct Stop as [Stop|[Stop|Stop]]; [left; lia|right; right; left; lia|auto].
  - assert (m = 0%nat) by exact (steps_zero _ _ _ _ Eo Hge MP). subst m. cbn [chg seq map set_inv] in GS |- *.
    assert (HG' : forall z, G' z = G z) by (inversion GS; subst; assumption).
    apply wp_ret. unfold res0, x0. cbn [x0 res0 N.eqb].
    destruct (N.eqb_spec (pack_return_code RMI_ERROR_RTT l) RMI_SUCCESS) as [Z|]; [exfalso; revert Z; apply pack_nonzero|].
    apply wp_bind, wp_ret. apply wp_bind, wp_unmap_slot; [side|]. apply wp_ret. apply FAIL; try lk.
Qed.
End Cmd.
