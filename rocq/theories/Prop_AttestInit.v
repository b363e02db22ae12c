(** C81, C82: the start of attestation and its random numbers. *)
From Coq Require Import NArith List Bool.
From Verif Require Import AttestInit SpecAttestInit AttestInitFacts.
Import ListNotations.
Local Open Scope N_scope.

(** ** The example: a counter as a generator, which fails for more than 100 words; a source that
    fails now and then; three CPUs *)
Definition ai_gen : drbg N :=
  mkDrbg (fun l => match l with [] => None | v :: _ => Some (1000 * v) end)
         (fun d n => if Nat.leb n 100 then Some (repeat d n, d + 1) else None).
Definition ai_src : list (option N) := None :: flat_map (fun i => [Some (N.of_nat i + 5); None]) (seq 0 18).
Definition ai_boot := mkBoot true true true (Some true).
Definition ai_ctx : N -> option N := match prng_init ai_gen true ai_src 3 with PrngOk ctx => ctx | _ => fun _ => None end.

(** ** C81: attestation works after the start exactly when every step succeeded, and the heap of
    the start is not left assigned to the CPU, whatever happened *)
Theorem attest_init_ready : forall D (R : drbg D) feat_rng src cpus b s ok,
  attestation_init R feat_rng src cpus b cold = Some (s, ok) ->
  a_heap s = false /\ heap_ctx_init s = ok /\
  (ok = true <-> (exists ctx, prng_init R feat_rng src cpus = PrngOk ctx) /\
                 b_psa b = true /\ b_key b = true /\ b_token b = true /\ b_queue b <> Some false).
Proof. intros D R feat_rng src cpus b s ok E. destruct (init_all _ _ _ _ _ _ _ _ E) as (A & B & _ & C). auto. Qed.

Definition ai_result (b : boot) (feat : bool) : option (bool * bool * bool * bool) :=
  match attestation_init ai_gen feat ai_src 3 b cold with Some (s, ok) => Some (a_heap s, heap_ctx_init s, a_dit s, ok) | None => None end.
Example attest_init_ready_example :
  ai_result ai_boot true = Some (false, true, false, true) /\ ai_result (mkBoot true true true None) true = Some (false, true, false, true) /\
  ai_result ai_boot false = Some (false, false, true, false) /\ ai_result (mkBoot true true false None) true = Some (false, false, true, false) /\
  attestation_init ai_gen true [Some 1; None] 3 ai_boot cold = None.
Proof. vm_compute. repeat split. Qed.

(** Data independent timing, enabled for the start, is disabled again after a start that
    succeeds; missing is one that fails, after which it stays enabled *)
Theorem attest_init_dit_partial : forall D (R : drbg D) feat_rng src cpus b s,
  attestation_init R feat_rng src cpus b cold = Some (s, true) -> a_dit s = false.
Proof. intros D R feat_rng src cpus b s E. destruct (init_all _ _ _ _ _ _ _ _ E) as (_ & _ & A & _). exact A. Qed.
Theorem attest_init_dit_refuted : exists b s,
  attestation_init ai_gen true ai_src 3 b cold = Some (s, false) /\ a_dit (@cold N) = false /\ a_dit s = true.
Proof. exists (mkBoot true false true None). eexists. split; [reflexivity|]. split; reflexivity. Qed.

(** ** C82: each CPU has a generator, and no other one; it is seeded with a block of its own of the
    output of a generator that was seeded with the first 16 words the source gave, failures of the
    source left out *)
Theorem attest_rnd_seeds : forall D (R : drbg D) feat_rng src cpus ctx, prng_init R feat_rng src cpus = PrngOk ctx ->
  feat_rng = true /\ (16 <= length (answers src))%nat /\
  exists tmp, d_seed R (firstn 16 (answers src)) = Some tmp /\
  forall c, match ctx c with
    | Some g => c < N.of_nat cpus /\ exists d seed d', after R tmp (N.to_nat c) = Some d /\ d_gen R d 16 = Some (seed, d') /\ d_seed R seed = Some g
    | None => N.of_nat cpus <= c
    end.
Proof. exact prng_all. Qed.
Example attest_rnd_seeds_example :
  (match prng_init ai_gen true ai_src 3 with PrngOk _ => true | _ => false end) = true /\
  firstn 3 (answers ai_src) = [5; 6; 7] /\ map ai_ctx [0; 1; 2; 3] = [Some 5000000; Some 5001000; Some 5002000; None].
Proof. vm_compute. repeat split. Qed.

(** What a CPU is given depends on its own requests alone: in any interleaving with those of
    other CPUs it gets what its generator gives alone, also when requests fail *)
Theorem attest_rnd_isolated : forall D (R : drbg D) reqs ctx c d, ctx c = Some d ->
  of_cpu c (serve R ctx reqs) = alone R d (of_cpu c reqs).
Proof. exact serve_all. Qed.
Example attest_rnd_isolated_example :
  of_cpu 1 (serve ai_gen ai_ctx [(0, 1%nat); (1, 2%nat); (2, 101%nat); (1, 101%nat); (0, 3%nat); (1, 1%nat)]) =
  [Some [5001000; 5001000]; None; Some [5001001]].
Proof. vm_compute. reflexivity. Qed.

Definition attest_init_theorems :=
  (@attest_init_ready, @attest_init_ready_example, @attest_init_dit_partial, @attest_init_dit_refuted, @attest_rnd_seeds,
   @attest_rnd_seeds_example, @attest_rnd_isolated, @attest_rnd_isolated_example).
Print Assumptions attest_init_theorems.
