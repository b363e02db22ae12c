(** Model of the start of the attestation library: lib/attestation/src/attestation_utils.c
    (attestation_init, attestation_heap_ctx_init) and attestation_rnd.c, the random number
    generators.

    The generator itself is mbedTLS's (HMAC_DRBG), and is a parameter: two functions that may
    fail.  Seeds and output are lists of 64-bit words, where the code has bytes.  Not modelled are
    the permission to use SIMD registers and psa_interruptible_set_max_ops, which cannot fail. *)
From Coq Require Import NArith List Bool.
Import ListNotations.
Local Open Scope N_scope.

(** mbedtls_hmac_drbg_seed_buf, mbedtls_hmac_drbg_random; None is an error *)
Record drbg (D : Type) := mkDrbg { d_seed : list N -> option D; d_gen : D -> nat -> option (list N * D) }.
Arguments d_seed {D}. Arguments d_gen {D}. Arguments mkDrbg {D}.

(** attestation_rnd.c:79: the words of a seed *)
Definition SEED_WORDS : nat := 16.

(** attestation_rnd.c:27-41: get_random_seed.  The source is the list of its answers, None for a
    failure; None as a result: the source ends first, the loop does not *)
Fixpoint get_random_seed (n : nat) (src : list (option N)) : option (list N) :=
  match n with
  | O => Some []
  | S n' =>
      (fix poll (src : list (option N)) : option (list N) :=
         match src with
         | [] => None
         | None :: src => poll src
         | Some v :: src => match get_random_seed n' src with Some l => Some (v :: l) | None => None end
         end) src
  end.

(** attestation_rnd.c:116-131: the loop over the CPUs, from CPU [i] on *)
Fixpoint seed_cpus {D} (R : drbg D) (n : nat) (i : N) (tmp : D) (ctx : N -> option D) : option (N -> option D) :=
  match n with
  | O => Some ctx
  | S n =>
      match d_gen R tmp SEED_WORDS with
      | None => None
      | Some (seed, tmp) =>
          match d_seed R seed with
          | None => None
          | Some d => seed_cpus R n (i + 1) tmp (fun j => if j =? i then Some d else ctx j)
          end
      end
  end.

(** How the setup of the generators ends: it does not, an error, or the generators of the CPUs *)
Inductive prng_res (D : Type) := PrngHang | PrngErr | PrngOk (ctx : N -> option D).
Arguments PrngHang {D}. Arguments PrngErr {D}. Arguments PrngOk {D}.
(** attestation_rnd.c:74-136: attest_rnd_prng_init for [cpus] CPUs *)
Definition prng_init {D} (R : drbg D) (feat_rng : bool) (src : list (option N)) (cpus : nat) : prng_res D :=
  if negb feat_rng then PrngErr
  else
    match get_random_seed SEED_WORDS src with
    | None => PrngHang
    | Some seed =>
        match d_seed R seed with
        | None => PrngErr
        | Some tmp => match seed_cpus R cpus 0 tmp (fun _ => None) with Some ctx => PrngOk ctx | None => PrngErr end
        end
    end.

(** attestation_rnd.c:50-72: mbedtls_psa_external_get_random on CPU [c].  The generator keeps its
    state when it fails. *)
Definition get_random {D} (R : drbg D) (ctx : N -> option D) (c : N) (n : nat) : (N -> option D) * option (list N) :=
  match ctx c with
  | None => (ctx, None)
  | Some d =>
      match d_gen R d n with
      | None => (ctx, None)
      | Some (out, d) => ((fun j => if j =? c then Some d else ctx j), Some out)
      end
  end.
(** Requests (CPU, words) in any order, and the answers with the CPU that got them *)
Fixpoint serve {D} (R : drbg D) (ctx : N -> option D) (reqs : list (N * nat)) : list (N * option (list N)) :=
  match reqs with
  | [] => []
  | (c, n) :: reqs => let (ctx, out) := get_random R ctx c n in (c, out) :: serve R ctx reqs
  end.

(** What the other steps of attestation_init return: psa_crypto_init,
    attest_init_realm_attestation_key, attest_setup_platform_token, and, when it is built in,
    el3_token_sign_queue_init *)
Record boot := mkBoot { b_psa : bool; b_key : bool; b_token : bool; b_queue : option bool }.
(** PSTATE.DIT and the heap of the CPU that boots (ctx_per_cpu), attest_initialized and the generators *)
Record attest (D : Type) := mkAttest { a_dit : bool; a_heap : bool; a_ready : bool; a_ctx : option (N -> option D) }.
Arguments mkAttest {D}. Arguments a_dit {D}. Arguments a_heap {D}. Arguments a_ready {D}. Arguments a_ctx {D}.

(** attestation_utils.c:52-118: attestation_init; the state after it and whether it returned 0,
    None when it does not return *)
Definition attestation_init {D} (R : drbg D) (feat_rng : bool) (src : list (option N)) (cpus : nat) (b : boot)
    (s : attest D) : option (attest D * bool) :=
  let s := mkAttest true (a_heap s) (a_ready s) (a_ctx s) in
  if a_heap s then Some (s, false)
  else
    let fail (ctx : option (N -> option D)) := Some (mkAttest (a_dit s) false (a_ready s) ctx, false) in
    match prng_init R feat_rng src cpus with
    | PrngHang => None
    | PrngErr => fail (a_ctx s)
    | PrngOk ctx =>
        if negb (b_psa b) then fail (Some ctx)
        else if negb (b_key b) then fail (Some ctx)
        else if negb (b_token b) then fail (Some ctx)
        else if match b_queue b with Some ok => negb ok | None => false end then fail (Some ctx)
        else Some (mkAttest false false true (Some ctx), true)
    end.

(** attestation_utils.c:120-133: attestation_heap_ctx_init, which a REC needs to sign *)
Definition heap_ctx_init {D} (s : attest D) : bool := a_ready s.

(** Before the first boot of the monitor *)
Definition cold {D} : attest D := mkAttest false false false None.
