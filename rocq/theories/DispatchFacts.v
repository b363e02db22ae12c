(** Proofs about the dispatch of SMCs. *)
From Coq Require Import NArith ZArith List Bool Lia ZifyBool ZifyN ZifyNat.
From Verif Require Import Bits State Granule RmiGranule RmiRtt RmiRealm RmiRec Machine Spec SpecStep Dispatch SpecDispatch.
Import ListNotations.
Local Open Scope N_scope.

Lemma ldiff_mask : forall y k, y < 2 ^ 32 -> N.land y (N.lxor (N.ones 32) k) = N.ldiff y k.
Proof.
  intros y k H. apply N.bits_inj. intros n. rewrite N.land_spec, N.lxor_spec, N.ldiff_spec, testbit_ones.
  destruct (N.ltb_spec n 32) as [L|L].
  - destruct (N.testbit y n), (N.testbit k n); reflexivity.
  - rewrite (testbit_false_lt y 32 n H L). reflexivity.
Qed.

(** The identifier without the hint *)
Lemma hint_cleared : forall y, y < 2 ^ 32 ->
  let z := if negb (N.land y SMC_SVE_HINT =? 0) then N.land y (N.lxor (N.ones 32) SMC_SVE_HINT) else y in
  z < 2 ^ 32 /\ N.testbit z 16 = false /\ (y = z \/ y = z + 2 ^ 16).
Proof.
  intros y H z.
  assert (E : N.land y SMC_SVE_HINT = if N.testbit y 16 then 2 ^ 16 else 0).
  { apply N.bits_inj. intros n. rewrite N.land_spec. unfold SMC_SVE_HINT. rewrite N.shiftl_1_l, N.pow2_bits_eqb.
    destruct (N.eqb_spec 16 n) as [<-|Ne].
    - destruct (N.testbit y 16) eqn:B; [rewrite N.pow2_bits_true|rewrite N.bits_0]; reflexivity.
    - rewrite andb_false_r. destruct (N.testbit y 16); [rewrite N.pow2_bits_false by exact Ne|rewrite N.bits_0]; reflexivity. }
  subst z. rewrite E. destruct (N.testbit y 16) eqn:B.
  - change (negb (2 ^ 16 =? 0)) with true. cbv iota. rewrite ldiff_mask by exact H.
    unfold SMC_SVE_HINT. rewrite N.shiftl_1_l.
    assert (S : y - 2 ^ 16 = N.ldiff y (2 ^ 16)).
    { apply N.sub_nocarry_ldiff. apply N.bits_inj. intros n. rewrite N.ldiff_spec, N.pow2_bits_eqb, N.bits_0.
      destruct (N.eqb_spec 16 n) as [<-|Ne]; [rewrite B|]; reflexivity. }
    rewrite <- S. assert (2 ^ 16 <= y).
    { destruct (N.lt_ge_cases y (2 ^ 16)) as [L|L]; [|exact L].
      rewrite (testbit_false_lt y 16 16 L) in B by lia. discriminate. }
    split; [lia|]. split; [|right; lia].
    rewrite S, N.ldiff_spec, N.pow2_bits_true. apply andb_false_r.
  - change (negb (0 =? 0)) with false. cbv iota. split; [exact H|]. split; [exact B|left; reflexivity].
Qed.

Lemma rmi_fid_iff : forall z, z < 2 ^ 32 -> is_smc64_rmi_fid z = true <-> exists i, i < 63 /\ z = rmi_fid i.
Proof.
  intros z H. unfold is_smc64_rmi_fid, is_smc64_fid_std_fast, fid_fnum, SMC64_RMI_FNUM_MIN, SMC64_RMI_FNUM_MAX, rmi_fid.
  rewrite ldiff_mask by exact H. change 65535 with (N.ones 16). rewrite N.ldiff_ones_r, N.land_ones, N.shiftl_mul_pow2, N.shiftr_div_pow2.
  change (N.lor (N.lor (N.shiftl 1 30) (N.shiftl 1 31)) (N.shiftl 4 24)) with 3288334336.
  change (2 ^ 16) with 65536. rewrite !andb_true_iff, N.eqb_eq, !N.leb_le.
  pose proof (N.div_mod z 65536 ltac:(discriminate)) as D. pose proof (N.mod_lt z 65536 ltac:(discriminate)) as M.
  set (q := z / 65536) in *. set (r := z mod 65536) in *. clearbody q r. split.
  - intros (A & B & C). exists (r - 336). lia.
  - intros (i & A & B). assert (q = 50176) by lia. lia.
Qed.

Definition table_entry (i : nat) : option (rmi_fn * N * N * N) :=
  match nth_error smc_handlers i with
  | Some h => match h_fn h with Some f => Some (f, N.of_nat i, h_in h, h_out h) | None => None end
  | None => None
  end.
Definition by_number (n : N) : option (rmi_fn * N * N * N) := find (fun e => let '(_, k, _, _) := e in k =? n) interface.

Lemma table_interface : forall i, (i < 63)%nat -> table_entry i = by_number (N.of_nat i).
Proof.
  intros i H. assert (E : map table_entry (seq 0 63) = map (fun i => by_number (N.of_nat i)) (seq 0 63)) by (vm_compute; reflexivity).
  assert (N : nth_error (map table_entry (seq 0 63)) i = nth_error (map (fun i => by_number (N.of_nat i)) (seq 0 63)) i) by (rewrite E; reflexivity).
  rewrite !nth_error_map in N. assert (S : nth_error (seq 0 63) i = Some i).
  { rewrite nth_error_nth' with (d := 0%nat) by (rewrite seq_length; exact H). rewrite seq_nth by exact H. reflexivity. }
  rewrite S in N. cbn [option_map] in N. congruence.
Qed.

Lemma by_number_in : forall f n i o, by_number n = Some (f, n, i, o) <-> In (f, n, i, o) interface.
Proof.
  intros f n i o. split.
  - intros H. apply find_some in H. exact (proj1 H).
  - intros H. cbn [interface In] in H.
    repeat (destruct H as [H|H]; [injection H as <- <- <- <-; reflexivity|]). destruct H.
Qed.
Lemma by_number_key : forall n e, by_number n = Some e -> exists f i o, e = (f, n, i, o).
Proof.
  intros n e H. apply find_some in H. destruct H as [_ H]. destruct e as [[[f k] i] o]. apply N.eqb_eq in H. subst k. eauto.
Qed.
Lemma numbers : forall f n i o, In (f, n, i, o) interface -> n < 63 /\ i <= 5 /\ o <= 4.
Proof.
  intros f n i o H. cbn [interface In] in H.
  repeat (destruct H as [H|H]; [injection H as <- <- <- <-; repeat split; discriminate || reflexivity|]). destruct H.
Qed.
Lemma types_known : forall f n i o, In (f, n, i, o) interface ->
  existsb (fun t => (fst t =? i) && (snd t =? o)) rmi_types = true.
Proof.
  intros f n i o H. cbn [interface In] in H.
  repeat (destruct H as [H|H]; [injection H as <- <- <- <-; reflexivity|]). destruct H.
Qed.

Lemma fid_bit16 : forall i, i < 63 -> N.testbit (rmi_fid i) 16 = false.
Proof.
  intros i H.
  rewrite N.testbit_eqb. unfold rmi_fid. replace ((3288334672 + i) / 2 ^ 16) with 50176; [reflexivity|].
  change (2 ^ 16) with 65536. apply (N.div_unique _ _ _ (336 + i)); lia.
Qed.

(** Which number is named *)
Lemma named : forall x0 n, n < 63 ->
  let y := x0 mod 2 ^ 32 in
  let z := if negb (N.land y SMC_SVE_HINT =? 0) then N.land y (N.lxor (N.ones 32) SMC_SVE_HINT) else y in
  names x0 n <-> z = rmi_fid n.
Proof.
  intros x0 n Hn y z. assert (Hy : y < 2 ^ 32) by (apply N.mod_lt; discriminate).
  destruct (hint_cleared y Hy) as (Z1 & Z2 & Z3). fold z in Z1, Z2, Z3. unfold names. fold y.
  pose proof (fid_bit16 n Hn) as B.
  assert (K : forall a, N.testbit a 16 = false -> N.testbit (a + 2 ^ 16) 16 = true).
  { intros a Ha. rewrite N.testbit_true in *. rewrite N.testbit_false in Ha. replace (a + 2 ^ 16) with (a + 1 * 2 ^ 16) by lia.
    rewrite N.div_add by discriminate. set (q := a / 2 ^ 16) in *. clearbody q.
    pose proof (N.div_mod q 2). pose proof (N.div_mod (q + 1) 2). pose proof (N.mod_lt (q + 1) 2). lia. }
  split.
  - intros [E|E]; destruct Z3 as [Z3|Z3]; try congruence.
    + exfalso. pose proof (K z Z2) as C. rewrite <- Z3, E, B in C. discriminate.
    + exfalso. pose proof (K _ B) as C. rewrite <- E, Z3, Z2 in C. discriminate.
    + lia.
  - intros E. rewrite <- E. destruct Z3 as [Z3|Z3]; [left|right]; exact Z3.
Qed.

Lemma dispatch_of : forall x0 args,
  handle_ns_smc x0 args =
  match (if existsb (fun i => let y := x0 mod 2 ^ 32 in
                       (if negb (N.land y SMC_SVE_HINT =? 0) then N.land y (N.lxor (N.ones 32) SMC_SVE_HINT) else y) =? rmi_fid (N.of_nat i)) (seq 0 63)
         then by_number ((let y := x0 mod 2 ^ 32 in
                       (if negb (N.land y SMC_SVE_HINT =? 0) then N.land y (N.lxor (N.ones 32) SMC_SVE_HINT) else y)) - rmi_fid 0) else None) with
  | Some (f, _, i, _) => DCall f (firstn (N.to_nat i) args)
  | None => DUnknown
  end.
Proof.
  intros x0 args. unfold handle_ns_smc. cbv zeta. set (y := x0 mod 2 ^ 32).
  assert (Hy : y < 2 ^ 32) by (apply N.mod_lt; discriminate).
  destruct (hint_cleared y Hy) as (Z1 & _). cbv zeta in Z1.
  set (z := if negb (N.land y SMC_SVE_HINT =? 0) then N.land y (N.lxor (N.ones 32) SMC_SVE_HINT) else y) in *.
  destruct (is_smc64_rmi_fid z) eqn:R.
  - apply rmi_fid_iff in R; [|exact Z1]. destruct R as (i & Hi & Ez).
    assert (X : existsb (fun j => z =? rmi_fid (N.of_nat j)) (seq 0 63) = true).
    { apply existsb_exists. exists (N.to_nat i). split; [apply in_seq; lia|]. rewrite N2Nat.id. apply N.eqb_eq. exact Ez. }
    rewrite X. assert (F : fid_fnum z - SMC64_RMI_FNUM_MIN = i).
    { unfold fid_fnum, SMC64_RMI_FNUM_MIN. change 65535 with (N.ones 16). rewrite N.land_ones, Ez. unfold rmi_fid.
      rewrite <- (N.mod_unique (3288334672 + i) (2 ^ 16) 50176 (336 + i)); lia. }
    rewrite F. replace (z - rmi_fid 0) with i by (rewrite Ez; unfold rmi_fid; lia).
    pose proof (table_interface (N.to_nat i) ltac:(lia)) as T. rewrite N2Nat.id in T. unfold table_entry in T. rewrite N2Nat.id in T.
    destruct (nth_error smc_handlers (N.to_nat i)) as [h|] eqn:E; [|rewrite <- T; reflexivity].
    destruct (h_fn h) as [f|] eqn:EF; [|rewrite <- T; reflexivity].
    rewrite <- T. symmetry in T. apply by_number_in in T. rewrite (types_known _ _ _ _ T). reflexivity.
  - assert (X : existsb (fun j => z =? rmi_fid (N.of_nat j)) (seq 0 63) = false).
    { apply not_true_is_false. intros X. apply existsb_exists in X. destruct X as (j & Hj & E). apply in_seq in Hj. apply N.eqb_eq in E.
      assert (is_smc64_rmi_fid z = true) by (apply rmi_fid_iff; [exact Z1|exists (N.of_nat j); split; [lia|exact E]]). congruence. }
    rewrite X. reflexivity.
Qed.

Lemma dispatch_call : forall x0 args f l,
  handle_ns_smc x0 args = DCall f l <->
  exists n i o, In (f, n, i, o) interface /\ names x0 n /\ l = firstn (N.to_nat i) args.
Proof.
  intros x0 args f l. rewrite dispatch_of. cbv zeta.
  set (y := x0 mod 2 ^ 32). set (z := if negb (N.land y SMC_SVE_HINT =? 0) then N.land y (N.lxor (N.ones 32) SMC_SVE_HINT) else y).
  assert (NM : forall n, n < 63 -> names x0 n <-> z = rmi_fid n) by (intros n Hn; exact (named x0 n Hn)). split.
  - intros H. destruct (existsb _ _) eqn:X in H; [|discriminate].
    apply existsb_exists in X. destruct X as (j & Hj & E). apply in_seq in Hj. apply N.eqb_eq in E.
    replace (z - rmi_fid 0) with (N.of_nat j) in H by (rewrite E; unfold rmi_fid; lia).
    destruct (by_number (N.of_nat j)) as [e|] eqn:B; [|discriminate].
    destruct (by_number_key _ _ B) as (f' & i & o & ->). injection H as <- <-.
    exists (N.of_nat j), i, o. split; [apply by_number_in; exact B|]. split; [|reflexivity]. apply NM; [lia|exact E].
  - intros (n & i & o & H & Hn & ->). destruct (numbers _ _ _ _ H) as (L & _). apply NM in Hn; [|exact L].
    assert (X : existsb (fun j => z =? rmi_fid (N.of_nat j)) (seq 0 63) = true).
    { apply existsb_exists. exists (N.to_nat n). split; [apply in_seq; lia|]. rewrite N2Nat.id. apply N.eqb_eq. exact Hn. }
    rewrite X. replace (z - rmi_fid 0) with n by (rewrite Hn; unfold rmi_fid; lia).
    apply by_number_in in H. rewrite H. reflexivity.
Qed.

Lemma dispatch_never_panics : forall x0 args, handle_ns_smc x0 args <> DPanic.
Proof.
  intros x0 args. rewrite dispatch_of. destruct (if existsb _ _ then _ else _) as [[[[f n] i] o]|]; discriminate.
Qed.
Lemma dispatch_unknown : forall x0 args,
  handle_ns_smc x0 args = DUnknown <-> forall f n i o, In (f, n, i, o) interface -> ~ names x0 n.
Proof.
  intros x0 args. split.
  - intros H f n i o Hin Hn. pose proof (proj2 (dispatch_call x0 args f (firstn (N.to_nat i) args))) as K.
    rewrite K in H; [discriminate|]. exists n, i, o. repeat split; assumption.
  - intros H. destruct (handle_ns_smc x0 args) as [|f l|] eqn:E; [reflexivity| |].
    + apply dispatch_call in E. destruct E as (n & i & o & Hin & Hn & _). exfalso. exact (H _ _ _ _ Hin Hn).
    + exfalso. exact (dispatch_never_panics _ _ E).
Qed.
Lemma names_once : forall x0 f n i o f' n' i' o', In (f, n, i, o) interface -> In (f', n', i', o') interface ->
  names x0 n -> names x0 n' -> (f, n, i, o) = (f', n', i', o').
Proof.
  intros x0 f n i o f' n' i' o' H H' N N'.
  destruct (numbers _ _ _ _ H) as (L & _). destruct (numbers _ _ _ _ H') as (L' & _).
  apply named in N; [|exact L]. apply named in N'; [|exact L']. cbv zeta in N, N'.
  assert (n = n') by (unfold rmi_fid in *; lia). subst n'.
  apply by_number_in in H, H'. congruence.
Qed.

Lemma call_op_call : forall p e f args n i o, In (f, n, i, o) interface -> (N.to_nat i <= length args)%nat ->
  op_call (call_op p e f (firstn (N.to_nat i) args)) = Some (f, firstn (N.to_nat i) args).
Proof.
  intros p e f args n i o H L. cbn [interface In] in H.
  repeat (destruct H as [H|H]; [injection H as <- <- <- <-;
    repeat (destruct args as [|? args]; [cbn in L; lia|]); reflexivity|]). destruct H.
Qed.

(** ** Result registers *)

(** Whatever a program returns has the property [P] *)
Fixpoint rets {A} (P : A -> Prop) (p : prog A) : Prop :=
  match p with
  | Ret a => P a
  | Panic => True
  | Lock _ k | Unlock _ k | AssertLocked _ k | MapSlot _ k | UnmapSlot _ k | WrState _ _ k | WrMem _ _ k | WrWord _ _ _ k
  | VmidClear _ k | Tlbi _ _ _ k => rets P k
  | RdState _ k => forall v, rets P (k v)
  | RdRef _ k => forall v, rets P (k v)
  | AddRef _ _ k => forall v, rets P (k v)
  | RdMem _ k => forall v, rets P (k v)
  | RdWord _ _ k => forall v, rets P (k v)
  | VmidSet _ k => forall v, rets P (k v)
  end.
Lemma rets_bind : forall {A B} (p : prog A) (f : A -> prog B) P, (forall a, rets P (f a)) -> rets P (bind p f).
Proof. intros A B p f P HF. induction p; cbn [bind rets]; auto. Qed.
Lemma rets_bind2 : forall {A B} (p : prog A) (f : A -> prog B) P Q, rets Q p -> (forall a, Q a -> rets P (f a)) -> rets P (bind p f).
Proof. intros A B p f P Q Hp HF. induction p; cbn [bind rets] in *; auto. Qed.
Lemma rets_run : forall {A} (p : prog A) P s a s', rets P p -> run p s = Done a s' -> P a.
Proof.
  intros A p P. induction p; intros s0 b s' Hp R; cbn [run rets] in *;
    try (injection R as <- _; exact Hp); try discriminate;
    repeat match type of R with context [match ?x with _ => _ end] => destruct x end; try discriminate; eauto.
Qed.

(** The registers beyond the first [o] results are zero *)
Definition tail0 (o : N) (r : res) : Prop := forall j, o < j -> j <= 4 -> result_reg r j = 0.
Lemma tail0_res0 : forall o e, tail0 o (res0 e).
Proof. intros o e j H _. unfold result_reg, res0. destruct (j =? 0) eqn:E; [lia|]. cbn [x1 x2 x3 x4]. destruct (j =? 1), (j =? 2), (j =? 3); reflexivity. Qed.
Lemma tail0_1 : forall o e a, 1 <= o -> tail0 o (mkRes e a 0 0 0).
Proof. intros o e a Ho j H _. unfold result_reg. cbn [x0 x1 x2 x3 x4]. destruct (j =? 0) eqn:E; [lia|]. destruct (j =? 1) eqn:E1; [lia|]. destruct (j =? 2), (j =? 3); reflexivity. Qed.
Lemma tail0_2 : forall o e a b, 2 <= o -> tail0 o (mkRes e a b 0 0).
Proof. intros o e a b Ho j H _. unfold result_reg. cbn [x0 x1 x2 x3 x4]. destruct (j =? 0) eqn:E; [lia|]. destruct (j =? 1) eqn:E1; [lia|]. destruct (j =? 2) eqn:E2; [lia|]. destruct (j =? 3); reflexivity. Qed.
Lemma tail0_4 : forall r, tail0 4 r.
Proof. intros r j H L. lia. Qed.

Ltac rets_leaf := first [apply tail0_res0 | apply tail0_1; lia | apply tail0_2; lia | apply tail0_4 | assumption].
Ltac rets_go :=
  lazymatch goal with
  | |- rets _ (let x := ?v in @?b x) => let y := fresh in set (y := v); cbv beta; rets_go
  | |- rets (A := res) ?P (bind (A := res) ?p ?f) => apply (rets_bind2 p f P P); [rets_go|intros ? ?; cbv beta; rets_go]
  | |- rets _ (bind ?p ?f) => apply rets_bind; intros ?; cbv beta; rets_go
  | |- rets _ (if ?b then _ else _) => destruct b; rets_go
  | |- rets _ (match ?b with _ => _ end) => destruct b; rets_go
  | |- rets _ (Ret _) => cbn [rets]; rets_leaf
  | |- _ => idtac
  end.

Lemma rets_just : forall p, rets (tail0 0) (just p).
Proof. intros p. unfold just. apply rets_bind. intros a. apply tail0_res0. Qed.
Lemma rets_fold : forall c a b l, rets (tail0 1) (smc_rtt_fold c a b l).
Proof. intros. unfold smc_rtt_fold. rets_go. Qed.
Lemma rets_destroy : forall c a b l, rets (tail0 2) (smc_rtt_destroy c a b l).
Proof. intros. unfold smc_rtt_destroy. rets_go. Qed.
Lemma rets_data_destroy : forall c a b, rets (tail0 2) (smc_data_destroy c a b).
Proof. intros. unfold smc_data_destroy. rets_go. Qed.
Lemma rets_unmap : forall c a b l, rets (tail0 1) (smc_rtt_unmap_unprotected c a b l).
Proof. intros. unfold smc_rtt_unmap_unprotected, map_unmap_ns. rets_go. Qed.
Lemma rets_aux : forall c a, rets (tail0 1) (smc_rec_aux_count c a).
Proof. intros. unfold smc_rec_aux_count. rets_go. Qed.
Lemma rets_init : forall c a b l, rets (tail0 1) (smc_rtt_init_ripas c a b l).
Proof. intros. unfold smc_rtt_init_ripas. rets_go. Qed.
Lemma rets_set : forall c a b l d, rets (tail0 1) (smc_rtt_set_ripas c a b l d).
Proof. intros. unfold smc_rtt_set_ripas, rtt_set_ripas_range. rets_go. Qed.
Lemma rets_any : forall (p : prog res), rets (tail0 4) p.
Proof. intros p. induction p; cbn [rets]; auto. apply tail0_4. Qed.

Lemma cmd_tail : forall c G k f args n i o, op_call (OCmd 0 k) = Some (f, args) -> In (f, n, i, o) interface ->
  rets (tail0 o) (cmd_prog c G k).
Proof.
  intros c G k f args n i o Hk Hin.
  assert (K : rets (tail0 (match by_number n with Some (_, _, _, o) => o | None => 0 end)) (cmd_prog c G k)).
  { destruct k; cbn [op_call] in Hk; try discriminate Hk; injection Hk as <- _; cbn [interface In] in Hin;
      repeat (destruct Hin as [Hin|Hin]; [try discriminate Hin; injection Hin as <- _ _|try (now destruct Hin)]); cbn [cmd_prog];
      lazymatch goal with |- rets (tail0 ?e) _ => let v := eval vm_compute in e in change e with v end;
      first [ apply rets_just | apply rets_fold | apply rets_destroy | apply rets_data_destroy | apply rets_unmap | apply rets_aux
            | apply rets_init | apply rets_set | apply rets_any
            | cbn [rets]; unfold smc_version, smc_read_feature_register; rets_leaf ]. }
  apply by_number_in in Hin. rewrite Hin in K. exact K.
Qed.

Lemma results_tail : forall c h m p k m' r f args n i o, next c h m (OCmd p k) m' (Reply r) ->
  op_call (OCmd p k) = Some (f, args) -> In (f, n, i, o) interface -> forall j, o < j -> j <= 4 -> result_reg r j = 0.
Proof.
  intros c h m p k m' r f args n i o (_ & _ & H) Hk Hin. cbn [step] in H. destruct (m_cpu m p); [discriminate|].
  destruct (run (cmd_prog c (m_gr m) k) (cpu_state m p)) as [r' s'| |] eqn:R; try discriminate. injection H as _ <-.
  exact (rets_run _ _ _ _ _ (cmd_tail c (m_gr m) k f args n i o Hk Hin) R).
Qed.
Lemma unknown_step : forall c h m p m' rp, next c h m (OCmd p KUnknown) m' rp -> same m m' /\ rp = Reply (res0 (2 ^ 64 - 1)).
Proof.
  intros c h m p m' rp (_ & _ & H). cbn [step cmd_prog run] in H. destruct (m_cpu m p); [discriminate|].
  injection H as <- <-. split; [|reflexivity].
  unfold same, back, cpu_state. cbn [m_locks m_slots m_gr m_vmids m_tlb m_cpu m_att s_locks s_slots s_gr s_vmids s_tlb att_after].
  repeat split; try reflexivity. intros. unfold upd. destruct (_ =? _) eqn:E; [apply N.eqb_eq in E; subst|]; reflexivity.
Qed.

Lemma smc_op_total : forall p e x0 args, (6 <= length args)%nat ->
  (exists o f n i j, smc_op p e x0 args = Some o /\ In (f, n, i, j) interface /\ names x0 n /\
     op_call o = Some (f, firstn (N.to_nat i) args)) \/
  (smc_op p e x0 args = Some (OCmd p KUnknown) /\ forall f n i j, In (f, n, i, j) interface -> ~ names x0 n).
Proof.
  intros p e x0 args L. unfold smc_op. destruct (handle_ns_smc x0 args) as [|f l|] eqn:E.
  - right. split; [reflexivity|]. apply (proj1 (dispatch_unknown x0 args) E).
  - left. apply dispatch_call in E. destruct E as (n & i & j & H & Hn & ->).
    exists (call_op p e f (firstn (N.to_nat i) args)), f, n, i, j. split; [reflexivity|]. split; [exact H|]. split; [exact Hn|].
    apply (call_op_call p e f args n i j H). destruct (numbers _ _ _ _ H) as (_ & K & _). lia.
  - exfalso. exact (dispatch_never_panics _ _ E).
Qed.
Lemma smc_unknown : forall c h m m' rp p e x0 args in4, smc_op p e x0 args = Some (OCmd p KUnknown) ->
  next c h m (OCmd p KUnknown) m' rp ->
  same m m' /\ exists r, rp = Reply r /\ smc_regs (OCmd p KUnknown) in4 r = [2 ^ 64 - 1; 0; 0; 0; in4].
Proof.
  intros c h m m' rp p e x0 args in4 _ H. destruct (unknown_step _ _ _ _ _ _ H) as (S & ->).
  split; [exact S|]. eexists. split; reflexivity.
Qed.
Lemma smc_results : forall c h m p k m' r f args n i o in4, next c h m (OCmd p k) m' (Reply r) ->
  op_call (OCmd p k) = Some (f, args) -> In (f, n, i, o) interface ->
  exists w1 w2 w3 w4, smc_regs (OCmd p k) in4 r = [x0 r; w1; w2; w3; w4] /\
    (w1 = 0 \/ 1 <= o) /\ (w2 = 0 \/ 2 <= o) /\ (w3 = 0 \/ 3 <= o) /\ (w4 = in4 \/ 4 <= o).
Proof.
  intros c h m p k m' r f args n i o in4 H Hk Hin. pose proof (results_tail _ _ _ _ _ _ _ _ _ _ _ _ H Hk Hin) as T.
  unfold smc_regs. do 4 eexists. split; [reflexivity|].
  pose proof (T 1) as T1. pose proof (T 2) as T2. pose proof (T 3) as T3. unfold result_reg in T1, T2, T3. cbn [N.eqb Pos.eqb] in T1, T2, T3.
  split; [destruct (N.lt_ge_cases o 1); [left; apply T1; lia|right; lia]|].
  split; [destruct (N.lt_ge_cases o 2); [left; apply T2; lia|right; lia]|].
  split; [destruct (N.lt_ge_cases o 3); [left; apply T3; lia|right; lia]|].
  destruct k; try (left; reflexivity). cbn [op_call] in Hk. injection Hk as <- _.
  right. cbn [interface In] in Hin.
  repeat (destruct Hin as [Hin|Hin]; [try discriminate Hin; injection Hin as _ _ <-; lia|]). destruct Hin.
Qed.
