(** Invariant of the pointer authentication keys. *)
From Coq Require Import NArith List Bool Lia.
From Verif Require Import Pauth SpecPauth.
Import ListNotations.
Local Open Scope N_scope.

Lemma some_inj {A} (a b : A) : Some a = Some b -> a = b.
Proof. congruence. Qed.
Ltac inj E := apply some_inj in E; subst.
Lemma upd_same {A} (f : N -> A) i v : upd f i v i = v.
Proof. unfold upd. rewrite N.eqb_refl. reflexivity. Qed.
Lemma upd_other {A} (f : N -> A) i v j : i <> j -> upd f i v j = f j.
Proof. intros H. unfold upd. destruct (N.eqb_spec i j); [contradiction | reflexivity]. Qed.

Lemma collect_values l : match collect l with
  | None => values l = []
  | Some (v, l') => values l = v :: values l'
  end.
Proof. induction l as [| [v |] l IH]; cbn; auto. Qed.
Lemma lor_add high low : low < 2 ^ 64 -> N.lor (N.shiftl high 64) low = high * 2 ^ 64 + low.
Proof.
  intros H. rewrite <- N.shiftl_mul_pow2. symmetry. rewrite N.add_nocarry_lxor, N.lxor_lor; auto; apply N.bits_inj; intros i; rewrite N.land_spec, N.bits_0;
    (destruct (N.lt_ge_cases i 64) as [L | L];
     [rewrite N.shiftl_spec_low by exact L; reflexivity |
      replace (N.testbit low i) with false; [apply andb_false_r |]; symmetry;
      destruct (N.eq_dec low 0) as [-> | NZ]; [apply N.bits_0 |]; apply N.bits_above_log2; apply N.lt_le_trans with 64; [apply N.log2_lt_pow2; [clear - NZ; lia | exact H] | exact L]]).
Qed.
Lemma halves high low : low < 2 ^ 64 -> high < 2 ^ 64 ->
  let a := N.lor (N.shiftl high 64) low in a mod 2 ^ 64 = low /\ N.shiftr a 64 mod 2 ^ 64 = high.
Proof.
  intros L H a. subst a. rewrite lor_add by exact L. rewrite N.shiftr_div_pow2.
  assert (Z : 2 ^ 64 <> 0) by discriminate. split.
  - rewrite N.add_comm, N.mod_add by exact Z. apply N.mod_small, L.
  - rewrite N.div_add_l by exact Z. rewrite (N.div_small low) by exact L. rewrite N.add_0_r. apply N.mod_small, H.
Qed.
Lemma init_ok rnd c c' : Forall (fun v => v < 2 ^ 64) (values rnd) -> init_enable rnd c = Some c' ->
  exists low high l, values rnd = low :: high :: l /\ ialo (c_keys c') = low /\ iahi (c_keys c') = high /\
    c_apia c' mod 2 ^ 64 = low /\ N.shiftr (c_apia c') 64 mod 2 ^ 64 = high /\
    c_sctlr c' = N.lor (c_sctlr c) (2 ^ 31) /\ c_hcr c' = N.lor (N.lor (c_hcr c) (2 ^ 41)) (2 ^ 40).
Proof.
  intros F. unfold init_enable. pose proof (collect_values rnd) as C1. destruct (collect rnd) as [[low l1] |]; [| discriminate].
  pose proof (collect_values l1) as C2. destruct (collect l1) as [[high l2] |]; [| discriminate]. intros E; inj E.
  rewrite C1, C2 in F. inversion F as [| ? ? F1 F2]; subst. inversion F2; subst.
  exists low, high, (values l2). destruct (halves high low) as [A B]; auto.
  split; [rewrite C1, C2; reflexivity |]. unfold restore_rmm_keys. cbn [c_keys c_apia c_sctlr c_hcr ialo iahi].
  repeat split; assumption.
Qed.
Lemma init_some rnd c : init_enable rnd c <> None <-> (2 <= List.length (values rnd))%nat.
Proof.
  unfold init_enable. pose proof (collect_values rnd) as C1. destruct (collect rnd) as [[low l1] |].
  - pose proof (collect_values l1) as C2. destruct (collect l1) as [[high l2] |]; rewrite C1, C2; cbn [List.length].
    + split; [intros _; lia | discriminate].
    + split; [intros H; destruct H; reflexivity | lia].
  - rewrite C1. cbn [List.length]. split; [intros H; destruct H; reflexivity | lia].
Qed.

Definition left1 (o : op) (L : N -> keys) (r : N) : keys := left_by [o] (L r) r.
Definition drawn1 (o : op) (D : N -> N * N) (c : N) : N * N := drawn [o] (D c) c.
Definition holds (m : mode) (r : N) : Prop := m = Loop r \/ m = Realm r.
Record Inv (s : state) (L : N -> keys) (D : N -> N * N) : Prop := {
  I_realm : forall c r, c_mode (cpus s c) = Realm r -> c_keys (cpus s c) = L r;
  I_rec : forall r, (forall c, c_mode (cpus s c) <> Realm r) -> recs s r = L r;
  I_own : forall c r, holds (c_mode (cpus s c)) r -> owner s r = Some c;
  I_key : forall c, c_mode (cpus s c) <> Off ->
     c_apia (cpus s c) mod 2 ^ 64 = fst (D c) /\ N.shiftr (c_apia (cpus s c)) 64 mod 2 ^ 64 = snd (D c) /\
     N.testbit (c_sctlr (cpus s c)) 31 = true;
  I_reg : forall c, c_mode (cpus s c) = Rmm \/ (exists r, c_mode (cpus s c) = Loop r) ->
     ialo (c_keys (cpus s c)) = fst (D c) /\ iahi (c_keys (cpus s c)) = snd (D c) }.

Ltac cpu c c' := destruct (N.eq_dec c c') as [<- | ?]; [rewrite ?upd_same in * | rewrite ?upd_other in * by congruence].
Lemma keys_eta k : mkKeys (ialo k) (iahi k) (iblo k) (ibhi k) (dalo k) (dahi k) (dblo k) (dbhi k) (galo k) (gahi k) = k.
Proof. destruct k; reflexivity. Qed.

Lemma step_inv s o s' L D : Inv s L D -> wf_op o -> step s o = Some s' -> Inv s' (left1 o L) (drawn1 o D).
Proof.
  intros I W E. destruct o as [c rnd | c | c k | r | c r | c r | c r k | c r | c r]; cbn [step] in E.
  - destruct (c_mode (cpus s c)) eqn:M; try discriminate E.
    destruct (init_enable rnd (cpus s c)) as [x |] eqn:IE; [| discriminate E]. inj E.
    destruct (init_ok _ _ _ W IE) as (lo & hi & l & V & A1 & A2 & A3 & A4 & A5 & _).
    assert (NR : forall r, c_mode (cpus s c) <> Realm r) by (intros r; rewrite M; discriminate).
    constructor; cbn [set_cpu cpus recs owner].
    + intros c' r H. cpu c c'; [discriminate H |]. apply (I_realm _ _ _ I _ _ H).
    + intros r H. apply (I_rec _ _ _ I). intros c' H'. apply (H c'). cpu c c'; [congruence | exact H'].
    + intros c' r H. cpu c c'; [destruct H; discriminate |]. apply (I_own _ _ _ I _ _ H).
    + intros c' H. unfold drawn1; cbn [drawn]. cpu c c'.
      * rewrite N.eqb_refl, V. cbn [nth fst snd with_mode c_apia c_sctlr]. rewrite A5, N.lor_spec.
        replace (N.testbit (2 ^ 31) 31) with true by reflexivity. rewrite orb_true_r. auto.
      * replace (c' =? c) with false by (symmetry; apply N.eqb_neq; congruence). apply (I_key _ _ _ I _ H).
    + intros c' H. unfold drawn1; cbn [drawn]. cpu c c'.
      * rewrite N.eqb_refl, V. cbn [nth fst snd with_mode c_keys]. auto.
      * replace (c' =? c) with false by (symmetry; apply N.eqb_neq; congruence). apply (I_reg _ _ _ I _ H).
  - destruct (c_mode (cpus s c)) eqn:M; try discriminate E. inj E.
    constructor; cbn [set_cpu cpus recs owner]; unfold drawn1, left1; cbn [drawn left_by].
    + intros c' r H. cpu c c'; [discriminate H |]. apply (I_realm _ _ _ I _ _ H).
    + intros r H. apply (I_rec _ _ _ I). intros c' H'. apply (H c'). cpu c c'; [congruence | exact H'].
    + intros c' r H. cpu c c'; [destruct H; discriminate |]. apply (I_own _ _ _ I _ _ H).
    + intros c' H. cpu c c'; [destruct H; reflexivity |]. apply (I_key _ _ _ I _ H).
    + intros c' H. cpu c c'; [destruct H as [H | [? H]]; discriminate H |]. apply (I_reg _ _ _ I _ H).
  - assert (HM : exists k', s' = set_cpu s c (with_keys k' (cpus s c)) /\ (forall r, c_mode (cpus s c) <> Realm r) /\
               (c_mode (cpus s c) = Off \/ c_mode (cpus s c) = Rmm /\ ialo k' = ialo (c_keys (cpus s c)) /\ iahi k' = iahi (c_keys (cpus s c)))).
    { destruct (c_mode (cpus s c)) eqn:M; try discriminate E; inj E; eexists; (split; [reflexivity |]); (split; [discriminate |]); auto. }
    destruct HM as (k' & -> & NR & K).
    constructor; cbn [set_cpu cpus recs owner]; unfold drawn1, left1; cbn [drawn left_by].
    + intros c' r H. cpu c c'; [exfalso; exact (NR _ H) |]. apply (I_realm _ _ _ I _ _ H).
    + intros r H. apply (I_rec _ _ _ I). intros c' H'. apply (H c'). cpu c c'; [exact H' | exact H'].
    + intros c' r H. cpu c c'; apply (I_own _ _ _ I _ _ H).
    + intros c' H. cpu c c'; apply (I_key _ _ _ I _ H).
    + intros c' H. cpu c c'; [| apply (I_reg _ _ _ I _ H)]. cbn [with_keys c_mode c_keys] in *.
      destruct K as [K | (K & -> & ->)]; [rewrite K in H; destruct H as [H | [? H]]; discriminate H | apply (I_reg _ _ _ I _ H)].
  - destruct (owner s r) eqn:O; [discriminate E |]. inj E.
    constructor; cbn [cpus recs owner]; unfold drawn1, left1; cbn [drawn left_by].
    + intros c' r' H. destruct (N.eqb_spec r' r) as [-> |]; [| apply (I_realm _ _ _ I _ _ H)].
      rewrite (I_own _ _ _ I c' r) in O; [discriminate O | right; exact H].
    + intros r' H. destruct (N.eqb_spec r' r) as [-> |]; [apply upd_same |]. rewrite upd_other by congruence. apply (I_rec _ _ _ I _ H).
    + apply (I_own _ _ _ I).
    + apply (I_key _ _ _ I).
    + apply (I_reg _ _ _ I).
  - destruct (c_mode (cpus s c)) eqn:M; try discriminate E. destruct (owner s r) eqn:O; [discriminate E |]. inj E.
    constructor; cbn [cpus recs owner]; unfold drawn1, left1; cbn [drawn left_by].
    + intros c' r' H. cpu c c'; [discriminate H |]. apply (I_realm _ _ _ I _ _ H).
    + intros r' H. apply (I_rec _ _ _ I). intros c' H'. apply (H c'). cpu c c'; [congruence | exact H'].
    + intros c' r' H. cpu c c'.
      * destruct H as [H | H]; [| discriminate H]. injection H as <-. apply upd_same.
      * pose proof (I_own _ _ _ I _ _ H) as O'. rewrite upd_other by congruence. exact O'.
    + intros c' H. cpu c c'; [apply (I_key _ _ _ I c); rewrite M; discriminate | apply (I_key _ _ _ I _ H)].
    + intros c' H. cpu c c'; [apply (I_reg _ _ _ I c); auto | apply (I_reg _ _ _ I _ H)].
  - destruct (c_mode (cpus s c)) as [| | r' | r'] eqn:M; try discriminate E. destruct (N.eqb_spec r r') as [<- |]; [| discriminate E]. inj E.
    assert (O : owner s r = Some c) by (apply (I_own _ _ _ I); left; exact M).
    assert (R : recs s r = L r).
    { apply (I_rec _ _ _ I). intros c' H. assert (O' : owner s r = Some c') by (apply (I_own _ _ _ I); right; exact H). congruence. }
    constructor; cbn [set_cpu cpus recs owner]; unfold drawn1, left1; cbn [drawn left_by].
    + intros c' r' H. cpu c c'; [| apply (I_realm _ _ _ I _ _ H)]. injection H as <-. cbn [with_mode with_keys c_keys].
      unfold restore_realm_keys. rewrite keys_eta. exact R.
    + intros r' H. apply (I_rec _ _ _ I). intros c' H'. apply (H c'). cpu c c'; [congruence | exact H'].
    + intros c' r' H. cpu c c'; [| apply (I_own _ _ _ I _ _ H)]. destruct H as [H | H]; [discriminate H |]. injection H as <-. exact O.
    + intros c' H. cpu c c'; [apply (I_key _ _ _ I c); rewrite M; discriminate | apply (I_key _ _ _ I _ H)].
    + intros c' H. cpu c c'; [destruct H as [H | [? H]]; discriminate H | apply (I_reg _ _ _ I _ H)].
  - destruct (c_mode (cpus s c)) as [| | r' | r'] eqn:M; try discriminate E. destruct (N.eqb_spec r r') as [<- |]; [| discriminate E]. inj E.
    assert (O : owner s r = Some c) by (apply (I_own _ _ _ I); right; exact M).
    constructor; cbn [set_cpu cpus recs owner]; unfold drawn1, left1; cbn [drawn left_by].
    + intros c' r' H. cpu c c'.
      * cbn [with_keys c_mode c_keys] in *. rewrite M in H. injection H as <-. rewrite N.eqb_refl. reflexivity.
      * destruct (N.eqb_spec r' r) as [-> |]; [| apply (I_realm _ _ _ I _ _ H)].
        assert (O' : owner s r = Some c') by (apply (I_own _ _ _ I); right; exact H). congruence.
    + intros r' H. destruct (N.eqb_spec r' r) as [-> |].
      * exfalso. apply (H c). rewrite upd_same. exact M.
      * apply (I_rec _ _ _ I). intros c' H'. apply (H c'). cpu c c'; [exact H' | exact H'].
    + intros c' r' H. cpu c c'; apply (I_own _ _ _ I _ _ H).
    + intros c' H. cpu c c'; apply (I_key _ _ _ I _ H).
    + intros c' H. cpu c c'; [| apply (I_reg _ _ _ I _ H)]. cbn [with_keys c_mode] in H. rewrite M in H. destruct H as [H | [? H]]; discriminate H.
  - destruct (c_mode (cpus s c)) as [| | r' | r'] eqn:M; try discriminate E. destruct (N.eqb_spec r r') as [<- |]; [| discriminate E]. inj E.
    assert (O : owner s r = Some c) by (apply (I_own _ _ _ I); right; exact M).
    assert (K : c_mode (cpus s c) <> Off) by (rewrite M; discriminate). destruct (I_key _ _ _ I c K) as (K1 & K2 & K3).
    constructor; cbn [cpus recs owner]; unfold drawn1, left1; cbn [drawn left_by].
    + intros c' r' H. cpu c c'; [discriminate H |]. apply (I_realm _ _ _ I _ _ H).
    + intros r' H. destruct (N.eq_dec r r') as [<- | NE].
      * rewrite upd_same. unfold save_realm_keys. rewrite keys_eta. apply (I_realm _ _ _ I _ _ M).
      * rewrite upd_other by exact NE. apply (I_rec _ _ _ I). intros c' H'. apply (H c'). cpu c c'; [congruence | exact H'].
    + intros c' r' H. cpu c c'; [| apply (I_own _ _ _ I _ _ H)]. destruct H as [H | H]; [| discriminate H]. injection H as <-. exact O.
    + intros c' H. cpu c c'; [cbn; auto | apply (I_key _ _ _ I _ H)].
    + intros c' H. cpu c c'; [cbn; auto | apply (I_reg _ _ _ I _ H)].
  - destruct (c_mode (cpus s c)) as [| | r' | r'] eqn:M; try discriminate E. destruct (N.eqb_spec r r') as [<- |]; [| discriminate E]. inj E.
    assert (O : owner s r = Some c) by (apply (I_own _ _ _ I); left; exact M).
    constructor; cbn [cpus recs owner]; unfold drawn1, left1; cbn [drawn left_by].
    + intros c' r' H. cpu c c'; [discriminate H |]. apply (I_realm _ _ _ I _ _ H).
    + intros r' H. apply (I_rec _ _ _ I). intros c' H'. apply (H c'). cpu c c'; [congruence | exact H'].
    + intros c' r' H. cpu c c'; [destruct H; discriminate |]. pose proof (I_own _ _ _ I _ _ H) as O'.
      rewrite upd_other by congruence. exact O'.
    + intros c' H. cpu c c'; [apply (I_key _ _ _ I c); rewrite M; discriminate | apply (I_key _ _ _ I _ H)].
    + intros c' H. cpu c c'; [apply (I_reg _ _ _ I c); right; exists r; exact M | apply (I_reg _ _ _ I _ H)].
Qed.

Lemma left_cons o ops m r : left_by (o :: ops) m r = left_by ops (left_by [o] m r) r.
Proof. destruct o; reflexivity. Qed.
Lemma drawn_cons o ops d c : drawn (o :: ops) d c = drawn ops (drawn [o] d c) c.
Proof. destruct o; reflexivity. Qed.
Lemma inv_ext s L D L' D' : Inv s L D -> (forall r, L r = L' r) -> (forall c, D c = D' c) -> Inv s L' D'.
Proof.
  intros [A B C E F] HL HD. constructor.
  - intros. rewrite <- HL. auto.
  - intros. rewrite <- HL. auto.
  - exact C.
  - intros. rewrite <- HD. auto.
  - intros. rewrite <- HD. auto.
Qed.
Lemma run_inv ops : forall s s' L D, Inv s L D -> Forall wf_op ops -> run s ops = Some s' ->
  Inv s' (fun r => left_by ops (L r) r) (fun c => drawn ops (D c) c).
Proof.
  induction ops as [| o ops IH]; intros s s' L D I F E; cbn [run] in E.
  - inj E. exact I.
  - inversion F; subst. destruct (step s o) as [s1 |] eqn:S; [| discriminate E].
    pose proof (step_inv s o s1 L D I H1 S) as I1. pose proof (IH _ _ _ _ I1 H2 E) as I2.
    eapply inv_ext; [exact I2 | |]; intros; symmetry; [apply left_cons | apply drawn_cons].
Qed.
Lemma start_inv h hcr sctlr m d : Inv (start h hcr sctlr m) m d.
Proof.
  constructor; cbn.
  - discriminate.
  - reflexivity.
  - intros c r [H | H]; discriminate H.
  - intros c H; destruct H; reflexivity.
  - intros c [H | [r H]]; discriminate H.
Qed.

Lemma realm_keys h hcr sctlr m ops s c r : Forall wf_op ops -> run (start h hcr sctlr m) ops = Some s ->
  c_mode (cpus s c) = Realm r -> c_keys (cpus s c) = left_by ops (m r) r.
Proof. intros F E M. apply (I_realm _ _ _ (run_inv _ _ _ _ _ (start_inv h hcr sctlr m (fun _ => (0, 0))) F E) _ _ M). Qed.
Lemma rmm_keys h hcr sctlr m ops s c : Forall wf_op ops -> run (start h hcr sctlr m) ops = Some s ->
  c_mode (cpus s c) = Rmm \/ (exists r, c_mode (cpus s c) = Loop r) ->
  (ialo (c_keys (cpus s c)), iahi (c_keys (cpus s c))) = drawn ops (0, 0) c /\ N.testbit (c_sctlr (cpus s c)) 31 = true.
Proof.
  intros F E M. pose proof (run_inv _ _ _ _ _ (start_inv h hcr sctlr m (fun _ => (0, 0))) F E) as I.
  destruct (I_reg _ _ _ I _ M) as [-> ->]. split; [symmetry; apply surjective_pairing |].
  apply (I_key _ _ _ I). destruct M as [-> | [r ->]]; discriminate.
Qed.
Lemma one_cpu h hcr sctlr m ops s c c' r : Forall wf_op ops -> run (start h hcr sctlr m) ops = Some s ->
  c_mode (cpus s c) = Realm r -> c_mode (cpus s c') = Realm r -> c = c'.
Proof.
  intros F E M M'. pose proof (run_inv _ _ _ _ _ (start_inv h hcr sctlr m (fun _ => (0, 0))) F E) as I.
  pose proof (I_own _ _ _ I c r (or_intror M)). pose proof (I_own _ _ _ I c' r (or_intror M')). congruence.
Qed.
