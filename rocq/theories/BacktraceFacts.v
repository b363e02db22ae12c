(** Proofs about the stack unwinder. *)
From Coq Require Import NArith List Bool Lia.
From Verif Require Import Backtrace SpecBacktrace.
Import ListNotations.
Local Open Scope N_scope.

Lemma land7 a : N.land a 7 = a mod 8.
Proof. change 7 with (N.ones 3). rewrite N.land_ones. reflexivity. Qed.
Lemma land3 a : N.land a 3 = a mod 4.
Proof. change 3 with (N.ones 2). rewrite N.land_ones. reflexivity. Qed.
Lemma all_readable_iff m n : forall a, a + N.of_nat n < 2 ^ 64 ->
  (all_readable m a n = true <-> forall i, i < N.of_nat n -> readable m (a + i) = true).
Proof.
  induction n as [| n IH]; intros a L.
  - split; [intros _ i H; lia | reflexivity].
  - cbn [all_readable]. rewrite N.mod_small by (clear - L; lia). rewrite andb_true_iff, IH by (clear - L; lia). split.
    + intros [H1 H2] i Hi. destruct (N.eq_dec i 0) as [-> | NZ]; [rewrite N.add_0_r; exact H1 |].
      replace (a + i) with (a + 1 + (i - 1)) by (clear - NZ; lia). apply H2. clear - Hi NZ. lia.
    + intros H. split; [specialize (H 0 ltac:(lia)); rewrite N.add_0_r in H; exact H |].
      intros i Hi. replace (a + 1 + i) with (a + (1 + i)) by lia. apply H. clear - Hi. lia.
Qed.
Lemma valid_iff m fp : fp < 2 ^ 64 -> (is_valid_frame_record m fp = true <-> record_at m fp).
Proof.
  intros B. unfold is_valid_frame_record, is_valid_object, record_at, FRAME_SIZE. rewrite land7.
  destruct (N.eqb_spec fp 0) as [Z | NZ]; [cbn [orb]; split; [discriminate | intros (H & _); contradiction] |]. cbn [orb].
  destruct (N.lt_ge_cases (fp + 16) (2 ^ 64)) as [L | L].
  - rewrite N.mod_small by exact L. replace (fp + 16 <? fp) with false by (symmetry; apply N.ltb_ge; lia).
    destruct (N.eqb_spec (fp mod 8) 0) as [A | A]; cbn [negb].
    + change (N.to_nat 16) with 16%nat. rewrite all_readable_iff by exact L. change (N.of_nat 16) with 16. tauto.
    + split; [discriminate | intros (_ & H & _); contradiction].
  - assert (W : (fp + 16) mod 2 ^ 64 < fp).
    { replace (fp + 16) with ((fp + 16 - 2 ^ 64) + 1 * 2 ^ 64) by (clear - L; lia).
      rewrite N.mod_add by discriminate. rewrite N.mod_small by (clear - L B; lia). clear - L B. lia. }
    replace ((fp + 16) mod 2 ^ 64 <? fp) with true by (symmetry; apply N.ltb_lt, W).
    split; [discriminate | intros (_ & _ & H & _); clear - H L; lia].
Qed.
Lemma jump_iff m a : is_valid_jump_address m a = true <-> code m a.
Proof.
  unfold is_valid_jump_address, code. rewrite land3.
  destruct (N.eqb_spec a 0); cbn [orb]; [split; [discriminate | intros (H & _); contradiction] |].
  destruct (N.eqb_spec (a mod 4) 0); cbn [negb]; [tauto |]. split; [discriminate | intros (_ & H & _); contradiction].
Qed.
Lemma load_lo m fp : record_at m fp -> load m fp = Some (word m fp).
Proof.
  intros (_ & A & L & R). unfold load. rewrite A. cbn [N.eqb andb].
  replace (all_readable m fp 8) with true; [reflexivity |]. symmetry. apply all_readable_iff; [change (N.of_nat 8) with 8; clear - L; lia |].
  intros i Hi. apply R. change (N.of_nat 8) with 8 in Hi. clear - Hi; lia.
Qed.
Lemma load_hi m fp : record_at m fp -> load m (fp + 8) = Some (word m (fp + 8)).
Proof.
  intros (_ & A & L & R). unfold load.
  replace ((fp + 8) mod 8) with 0 by (rewrite <- (N.mul_1_l 8) at 1; rewrite N.mod_add by discriminate; congruence). cbn [N.eqb andb].
  replace (all_readable m (fp + 8) 8) with true; [reflexivity |]. symmetry. apply all_readable_iff; [change (N.of_nat 8) with 8; clear - L; lia |].
  intros i Hi. rewrite <- N.add_assoc. apply R. change (N.of_nat 8) with 8 in Hi. clear - Hi; lia.
Qed.

(** Nothing is read that cannot be *)
Lemma unwind_safe m x n : (forall a, word m a < 2 ^ 64) -> forall fp, fp < 2 ^ 64 -> exists l, unwind m x n fp = Lines l /\
  Forall (good m) l /\ (List.length (filter is_site l) <= n)%nat /\ (List.length l <= S n)%nat.
Proof.
  intros Wd. induction n as [| n IH]; intros fp B; cbn [unwind].
  - exists [MaxDepth]. split; [reflexivity |]. split; [repeat constructor |]. cbn; lia.
  - destruct (is_valid_frame_record m fp) eqn:V; cbn [negb].
    + apply valid_iff in V; [| exact B]. rewrite load_hi, load_lo by exact V.
      destruct (is_valid_jump_address m _) eqn:J; cbn [negb].
      * apply jump_iff in J. destruct (IH (word m fp) (Wd fp)) as (l & -> & G & C & Ln).
        eexists. split; [reflexivity |]. split; [constructor; assumption |]. cbn; lia.
      * exists []. split; [reflexivity |]. split; [constructor |]. cbn; lia.
    + exists []. split; [reflexivity |]. split; [constructor |]. cbn; lia.
Qed.
Lemma backtrace_safe m x fp : (forall a, word m a < 2 ^ 64) -> fp < 2 ^ 64 -> exists l, backtrace m x fp = Lines l /\
  Forall (good m) l /\ (List.length (filter is_site l) <= 20)%nat /\ (List.length l <= 21)%nat.
Proof.
  intros Wd B. unfold backtrace. destruct (is_valid_frame_record m fp); cbn [negb].
  - apply unwind_safe; assumption.
  - eexists. split; [reflexivity |]. split; [repeat constructor |]. cbn; lia.
Qed.

(** A stack is shown as it is *)
Lemma site_eq a : a < 2 ^ 64 -> ((a + 4) mod 2 ^ 64 + 2 ^ 64 - 4) mod 2 ^ 64 = a.
Proof.
  intros B. destruct (N.lt_ge_cases (a + 4) (2 ^ 64)) as [L | L].
  - rewrite (N.mod_small (a + 4)) by exact L. replace (a + 4 + 2 ^ 64 - 4) with (a + 1 * 2 ^ 64) by (clear; lia).
    rewrite N.mod_add by discriminate. apply N.mod_small, B.
  - replace ((a + 4) mod 2 ^ 64) with (a + 4 - 2 ^ 64).
    + replace (a + 4 - 2 ^ 64 + 2 ^ 64 - 4) with a by (clear - L; lia). apply N.mod_small, B.
    + replace (a + 4) with ((a + 4 - 2 ^ 64) + 1 * 2 ^ 64) at 2 by (clear - L; lia).
      rewrite N.mod_add by discriminate. symmetry. apply N.mod_small. clear - L B. lia.
Qed.
Lemma record_small m fp : record_at m fp -> fp < 2 ^ 64.
Proof. intros (_ & _ & L & _). clear - L. lia. Qed.
Lemma unwind_stack m x n : forall fp l, stack m x fp l -> unwind m x n fp = Lines (shown n l).
Proof.
  unfold shown. induction n as [| n IH]; intros fp l S; [reflexivity |]. cbn [unwind]. inversion S as [| fp' a l' R C B E S']; subst.
  - replace (is_valid_frame_record m 0) with false by reflexivity. reflexivity.
  - replace (is_valid_frame_record m fp) with true by (symmetry; apply valid_iff; [apply (record_small m) |]; assumption).
    cbn [negb]. rewrite load_hi, load_lo by exact R. rewrite E, site_eq by exact B.
    replace (is_valid_jump_address m a) with true by (symmetry; apply jump_iff; exact C). cbn [negb].
    rewrite (IH _ _ S'). reflexivity.
Qed.
Lemma backtrace_stack m x fp l : stack m x fp l -> l <> [] -> backtrace m x fp = Lines (shown 20 l).
Proof.
  intros S NE. unfold backtrace. inversion S as [| fp' a l' R C B E S']; subst; [contradiction |].
  replace (is_valid_frame_record m fp) with true by (symmetry; apply valid_iff; [apply (record_small m) |]; assumption).
  cbn [negb]. apply unwind_stack, S.
Qed.
Lemma backtrace_bad m x fp : fp < 2 ^ 64 -> (backtrace m x fp = Lines [Corrupted fp] <-> ~ record_at m fp).
Proof.
  intros B. unfold backtrace. destruct (is_valid_frame_record m fp) eqn:V; cbn [negb].
  - apply valid_iff in V; [| exact B]. split; [| intros H; contradiction].
    intros E. exfalso. unfold UNWIND_LIMIT in E. cbn [unwind] in E. 
    destruct (negb (is_valid_frame_record m fp)); [discriminate E |]. destruct (load m (fp + 8)); [| discriminate E].
    destruct (negb (is_valid_jump_address m _)); [discriminate E |]. destruct (load m fp) as [p |]; [| discriminate E].
    match type of E with match ?t with _ => _ end = _ => destruct t; discriminate E end.
  - split; [| reflexivity]. intros _ R. apply valid_iff in R; [congruence | exact B].
Qed.
