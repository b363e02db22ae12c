(** Facts about AttestInit.v. *)
From Coq Require Import NArith List Bool Lia ZifyBool ZifyN ZifyNat.
From Verif Require Import AttestInit SpecAttestInit.
Import ListNotations.
Local Open Scope N_scope.

Lemma seed_eq : forall n src,
  get_random_seed n src = if Nat.leb n (length (answers src)) then Some (firstn n (answers src)) else None.
Proof.
  induction n as [|n IH]; intro src; [reflexivity|]. induction src as [|[v|] src IHs]; [reflexivity| |exact IHs].
  cbn [get_random_seed answers length firstn Nat.leb]. rewrite IH. destruct (Nat.leb n (length (answers src))); reflexivity.
Qed.

Lemma after_first : forall D (R : drbg D) k d, after R d (S k) = match d_gen R d 16 with Some (_, d') => after R d' k | None => None end.
Proof.
  intros D R. induction k as [|k IH]; intro d.
  - cbn [after]. destruct (d_gen R d 16) as [[o d']|]; reflexivity.
  - change (after R d (S (S k))) with (match after R d (S k) with Some x => option_map snd (d_gen R x 16) | None => None end).
    rewrite IH. destruct (d_gen R d 16) as [[o d']|]; reflexivity.
Qed.

Lemma seed_cpus_all : forall D (R : drbg D) n i tmp ctx ctx', seed_cpus R n i tmp ctx = Some ctx' ->
  (forall j, j < i \/ i + N.of_nat n <= j -> ctx' j = ctx j) /\
  forall k, (k < n)%nat -> exists d seed d' g, after R tmp k = Some d /\ d_gen R d 16 = Some (seed, d') /\
    d_seed R seed = Some g /\ ctx' (i + N.of_nat k) = Some g.
Proof.
  intros D R. induction n as [|n IH]; intros i tmp ctx ctx' E; cbn [seed_cpus] in E.
  - assert (ctx' = ctx) by congruence. subst ctx'. split; [reflexivity|]. intros k K. lia.
  - change SEED_WORDS with 16%nat in E.
    destruct (d_gen R tmp 16) as [[seed tmp']|] eqn:G; [|discriminate]. destruct (d_seed R seed) as [g|] eqn:SG; [|discriminate].
    destruct (IH _ _ _ _ E) as (A & B). split.
    + intros j J. rewrite A by lia. destruct (N.eqb_spec j i); [lia|reflexivity].
    + intros [|k] K.
      * exists tmp, seed, tmp', g. repeat split; [exact G|exact SG|].
        rewrite A by lia. replace (i + N.of_nat 0) with i by lia. rewrite N.eqb_refl. reflexivity.
      * destruct (B k ltac:(lia)) as (d & sd & d' & g' & B1 & B2 & B3 & B4). exists d, sd, d', g'.
        rewrite after_first, G. repeat split; try assumption. replace (i + N.of_nat (S k)) with (i + 1 + N.of_nat k) by lia. exact B4.
Qed.

Lemma prng_all : forall D (R : drbg D) feat src cpus ctx, prng_init R feat src cpus = PrngOk ctx ->
  feat = true /\ (16 <= length (answers src))%nat /\
  exists tmp, d_seed R (firstn 16 (answers src)) = Some tmp /\
  forall c, match ctx c with
    | Some g => c < N.of_nat cpus /\ exists d seed d', after R tmp (N.to_nat c) = Some d /\ d_gen R d 16 = Some (seed, d') /\ d_seed R seed = Some g
    | None => N.of_nat cpus <= c
    end.
Proof.
  intros D R feat src cpus ctx E. unfold prng_init in E. destruct feat; [|discriminate]. cbn [negb] in E. rewrite seed_eq in E.
  change SEED_WORDS with 16%nat in E.
  destruct (PeanoNat.Nat.leb_spec 16 (length (answers src))) as [L|L]; [|discriminate].
  destruct (d_seed R (firstn 16 (answers src))) as [tmp|] eqn:S; [|discriminate].
  destruct (seed_cpus R cpus 0 tmp (fun _ => None)) as [ctx'|] eqn:C; [|discriminate].
  assert (ctx' = ctx) by congruence. subst ctx'. destruct (seed_cpus_all _ _ _ _ _ _ _ C) as (A & B).
  split; [reflexivity|]. split; [exact L|]. exists tmp. split; [reflexivity|]. intro c.
  destruct (N.lt_ge_cases c (N.of_nat cpus)) as [K|K].
  - destruct (B (N.to_nat c) ltac:(lia)) as (d & sd & d' & g & B1 & B2 & B3 & B4).
    replace (0 + N.of_nat (N.to_nat c)) with c in B4 by lia. rewrite B4. split; [exact K|]. exists d, sd, d'. repeat split; assumption.
  - rewrite (A c) by lia. exact K.
Qed.

Lemma serve_all : forall D (R : drbg D) reqs ctx c d, ctx c = Some d -> of_cpu c (serve R ctx reqs) = alone R d (of_cpu c reqs).
Proof.
  intros D R. induction reqs as [|[c' n] reqs IH]; intros ctx c d E; [reflexivity|].
  cbn [serve]. unfold get_random, of_cpu. destruct (N.eqb_spec c' c) as [->|NE].
  - rewrite E. destruct (d_gen R d n) as [[out d']|] eqn:G; cbn [filter fst map snd]; rewrite N.eqb_refl; cbn [map snd alone]; rewrite G; f_equal.
    + apply IH. rewrite N.eqb_refl. reflexivity.
    + apply IH. exact E.
  - apply N.eqb_neq in NE. destruct (ctx c') as [x|].
    + destruct (d_gen R x n) as [[out x']|]; cbn [filter fst]; rewrite NE; apply IH; [|exact E].
      rewrite N.eqb_sym, NE. exact E.
    + cbn [filter fst]. rewrite NE. apply IH. exact E.
Qed.

Lemma init_all : forall D (R : drbg D) feat src cpus b s' ok, attestation_init R feat src cpus b cold = Some (s', ok) ->
  a_heap s' = false /\ heap_ctx_init s' = ok /\ a_dit s' = negb ok /\
  (ok = true <-> (exists ctx, prng_init R feat src cpus = PrngOk ctx) /\ b_psa b = true /\ b_key b = true /\ b_token b = true /\ b_queue b <> Some false).
Proof.
  intros D R feat src cpus b s' ok E. unfold attestation_init, cold in E. cbn [a_heap a_ready a_ctx a_dit] in E.
  destruct (prng_init R feat src cpus) as [| |ctx]; [discriminate| |].
  - assert (s' = mkAttest true false false None /\ ok = false) as [-> ->] by (split; congruence).
    repeat split; try discriminate. intros ((ctx & K) & _). discriminate K.
  - destruct b as [[|] [|] [|] [[|]|]]; cbn [b_psa b_key b_token b_queue negb] in *; injection E as <- <-;
      repeat split; try discriminate; try (exists ctx; reflexivity); try (intros (_ & K1 & K2 & K3 & K4); congruence).
Qed.
