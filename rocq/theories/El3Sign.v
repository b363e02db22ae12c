(** Model of token signing by EL3 (the build option ATTEST_EL3_TOKEN_SIGN): a REC hands the
    hash of its attestation token to EL3 through a queue, and every CPU that runs a REC in
    RSI_ATTESTATION_TOKEN_CONTINUE pulls answers from EL3, for its own REC or for another one.

    The steps below are the points at which CPUs interleave: what one CPU does while it holds
    a spinlock is one step, except for the delivery of an answer, which is split at every
    access to the context, and for the parts of the code that take no lock. *)
From Coq Require Import NArith List Bool.
Import ListNotations.
Local Open Scope N_scope.

(** enum attest_token_gen_state_t, lib/attestation/include/attestation_token.h:30-35 *)
Inductive gstate := GNotStarted | GInit | GSign | GCreate.

(** What the signature field of a token holds. Signatures are symbols: [Sig h] is EL3's
    signature over the hash [h]; [Blank] is what the buffer held before. *)
Inductive blob := Blank | Sig (h : N).

(** struct token_sign_cntxt, lib/attestation/include/attestation_token.h:79-108, with
    struct t_cose_el3_token_sign_ctx, lib/t_cose/include/t_cose_el3_token_sign.h:17-37.
    Simplified: of the t_cose and QCBOR contexts only the hash over the payload and whether
    signing was started; sign_alg_id and hash_len are one flag, as only ES384 is used. *)
Record tctx := mkTctx {
  t_state : gstate;      (** state *)
  t_hash : N;            (** the hash of the payload of the token *)
  t_room : N;            (** the space for the signature in rmm_realm_token_buf *)
  t_started : bool;      (** started, of the restartable signer of t_cose *)
  t_lock : bool;         (** lock *)
  t_queued : bool;       (** is_req_queued *)
  t_valid : bool;        (** is_sig_valid *)
  t_err : bool;          (** is_el3_err *)
  t_alg : bool;          (** sign_alg_id is ECDSA with SHA-384 and hash_len 48 *)
  t_cookie : N;          (** cookie *)
  t_ticket : N;          (** req_ticket *)
  t_siglen : N;          (** sig_len *)
  t_buf : bool;          (** sig_buffer is not NULL *)
  t_ehash : N            (** what hash_buffer points to *)
}.
Definition tctx0 : tctx := mkTctx GNotStarted 0 0 false false false false false false 0 0 0 false 0.

(** A REC: struct rec_attest_data, lib/realm/include/rec.h, the lock of the REC granule, and
    the CPU that runs the REC (the reference count of the granule).
    Simplified: of rmm_realm_token_len only whether it is 0, of rmm_realm_token_buf only the
    field for the signature. *)
Record srec := mkSrec {
  r_run : option N;      (** the CPU that runs the REC *)
  r_glock : bool;        (** the lock of the granule *)
  r_len : bool;          (** rmm_realm_token_len is not 0 *)
  r_buf : blob;          (** the signature in rmm_realm_token_buf *)
  r_ctx : tctx           (** token_sign_ctx *)
}.

(** struct el3_token_sign_request and struct el3_token_sign_response,
    lib/rmm_el3_ifc/include/rmm_el3_ifc.h:162-181: the fields that vary *)
Record sreq := mkReq { q_ticket : N; q_cookie : N; q_hash : N }.
Record sresp := mkResp { p_ticket : N; p_cookie : N; p_len : N; p_sig : blob }.

(** Where a CPU is in the handlers of the RSI calls *)
Inductive spc :=
| PIdle                (** in the realm, or no REC runs *)
| PInit                (** attest_token_ctx_init, after the memset *)
| PMade                (** before attest_realm_token_create *)
| PLoop                (** at the head of the loop of handle_rsi_attest_token_continue *)
| PPull                (** before the check for interrupts *)
| PWrite               (** before write_response_to_rec *)
| PCheck (a : N)       (** in attest_el3_token_write_response_to_ctx, the lock of the context of REC a taken *)
| PCopy (a : N)        (** before the memcpy *)
| PMark (a : N)        (** before is_sig_valid is set *)
| PRel (a : N).        (** before the locks are released *)

(** The monitor and EL3.
    el3_token_sign_ticket and token_sign_response: attestation_el3_token_sign.c:19-21 *)
Record ssys := mkSsys {
  y_ticket : N;                (** el3_token_sign_ticket *)
  y_shared : bool;             (** the lock of the buffer shared with EL3 *)
  y_el3 : list sreq;           (** requests that EL3 accepted and did not answer yet *)
  y_resp : N -> sresp;         (** token_sign_response *)
  y_pc : N -> spc;
  y_run : N -> option N;       (** the REC mapped by a CPU *)
  y_rec : N -> option srec     (** by the address of the REC granule *)
}.
Definition ssys0 : ssys :=
  mkSsys 1 false [] (fun _ => mkResp 0 0 0 Blank) (fun _ => PIdle) (fun _ => None) (fun _ => None).

(** What can be observed: requests and answers at EL3, and what the realm is told *)
Inductive sev :=
| EvNew (a : N)                        (** REC a starts a token, or is created *)
| EvAsk (t a h : N)                    (** EL3 accepts the request t of REC a to sign h *)
| EvAnswer (t a h : N)                 (** EL3 answers it *)
| EvSigned (a h : N)                   (** signing of the token of REC a with hash h ends well *)
| EvToken (a h : N) (b : blob).        (** REC a gets its token, with hash h and signature b *)

(** The answers of EL3 to a request to queue, E_RMM_OK, E_RMM_AGAIN and others, and to a
    request to fetch: the answer to the i-th open request, of which the length of the
    signature is [len], or a code *)
Inductive el3_push := PushOk | PushAgain | PushErr.
Inductive el3_pull := PullOk (i : nat) (len : N) | PullAgain | PullErr.

Inductive sop :=
| SRecCreate (a : N) | SRecDestroy (a : N)
| SEnter (c a : N) | SLeave (c : N)
| STokenInit (c : N)              (** RSI_ATTESTATION_TOKEN_INIT up to the memset *)
| SCtxInit (c : N) (heap : bool)  (** attestation_heap_ctx_init and t_cose_crypto_el3_ctx_init *)
| SCreate (c : N) (h : option (N * N))  (** attest_realm_token_create: the hash of the payload and the space
                                           left for the signature, None if it fails *)
| SContinue (c : N)               (** RSI_ATTESTATION_TOKEN_CONTINUE up to the loop *)
| SSign (c : N) (r : el3_push)   (** attest_realm_token_sign *)
| SIrq (c : N)
| SPull (c : N) (r : el3_pull)
| SAcquire (c : N) | SCheck (c : N) | SCopy (c : N) | SMark (c : N) | SRelease (c : N)
| SToken (c : N).                 (** attest_token_continue_write_state *)

(** A step does not apply or spins on a lock, breaks (a failing assertion, or a write
    through a NULL pointer), or has an effect *)
Inductive sbad := BadTicket | BadUnqueued | BadLen | BadNull | BadCookie.
Inductive sres := SNo | SBad (b : sbad) | SOk (y : ssys) (e : list sev).

Definition supd {A : Type} (f : N -> A) (k : N) (v : A) : N -> A := fun x => if x =? k then v else f x.
Definition set_pc (y : ssys) (c : N) (p : spc) : ssys :=
  mkSsys (y_ticket y) (y_shared y) (y_el3 y) (y_resp y) (supd (y_pc y) c p) (y_run y) (y_rec y).
Definition set_rec (y : ssys) (a : N) (r : option srec) : ssys :=
  mkSsys (y_ticket y) (y_shared y) (y_el3 y) (y_resp y) (y_pc y) (y_run y) (supd (y_rec y) a r).
Definition set_run (y : ssys) (c : N) (r : option N) : ssys :=
  mkSsys (y_ticket y) (y_shared y) (y_el3 y) (y_resp y) (y_pc y) (supd (y_run y) c r) (y_rec y).
Definition set_ctx (r : srec) (x : tctx) : srec := mkSrec (r_run r) (r_glock r) (r_len r) (r_buf r) x.

(** The REC that a CPU runs *)
Definition own (y : ssys) (c : N) : option (N * srec) :=
  match y_run y c with
  | Some a => match y_rec y a with Some r => Some (a, r) | None => None end
  | None => None
  end.

(** REC_CREATE and REC_DESTROY: runtime/rmi/rec.c. The auxiliary granules of a new REC are
    zero (they were wiped on GRANULE_DELEGATE). A REC is destroyed only with the lock of its
    granule and no reference to it. *)
Definition rec_create (y : ssys) (a : N) : sres :=
  match y_rec y a with
  | None => SOk (set_rec y a (Some (mkSrec None false false Blank tctx0))) [EvNew a]
  | Some _ => SNo
  end.
Definition rec_destroy (y : ssys) (a : N) : sres :=
  match y_rec y a with
  | Some r => match r_run r with
              | None => if r_glock r then SNo else SOk (set_rec y a None) []
              | Some _ => SNo
              end
  | None => SNo
  end.
(** REC_ENTER and its end: runtime/rmi/run.c *)
Definition rec_enter (y : ssys) (c a : N) : sres :=
  match y_rec y a with
  | Some r =>
      match y_pc y c, y_run y c, r_run r with
      | PIdle, None, None =>
          if r_glock r then SNo
          else SOk (set_run (set_rec y a (Some (mkSrec (Some c) false (r_len r) (r_buf r) (r_ctx r)))) c (Some a)) []
      | _, _, _ => SNo
      end
  | None => SNo
  end.
Definition rec_leave (y : ssys) (c : N) : sres :=
  match y_pc y c, own y c with
  | PIdle, Some (a, r) =>
      SOk (set_run (set_rec y a (Some (mkSrec None (r_glock r) (r_len r) (r_buf r) (r_ctx r)))) c None) []
  | _, _ => SNo
  end.

(** handle_rsi_attest_token_init, runtime/rsi/realm_attest.c:137-163, and
    attest_token_ctx_init, lib/attestation/src/attestation_token.c:374-385: if the state is
    not INIT the whole context is wiped, with its lock, which is not taken *)
Definition token_init (y : ssys) (c : N) : sres :=
  match y_pc y c, own y c with
  | PIdle, Some (a, r) =>
      match t_state (r_ctx r) with
      | GInit => SOk (set_pc (set_rec y a (Some (mkSrec (r_run r) (r_glock r) false (r_buf r) (r_ctx r)))) c PMade) [EvNew a]
      | _ => SOk (set_pc (set_rec y a (Some (mkSrec (r_run r) (r_glock r) false (r_buf r) tctx0))) c PInit) [EvNew a]
      end
  | _, _ => SNo
  end.
(** attest_token_ctx_init, attestation_token.c:387-400, and t_cose_crypto_el3_ctx_init,
    lib/t_cose/src/t_cose_el3_token_sign.c:48-57 *)
Definition ctx_init (y : ssys) (c : N) (heap : bool) : sres :=
  match y_pc y c, own y c with
  | PInit, Some (a, r) =>
      if heap then
        let x := r_ctx r in
        if t_lock x then SNo
        else SOk (set_pc (set_rec y a (Some (set_ctx r
               (mkTctx GInit (t_hash x) (t_room x) (t_started x) false false false false false a 0 0 false 0)))) c PMade) []
      else SOk (set_pc y c PIdle) []
  | _, _ => SNo
  end.
(** attest_realm_token_create, attestation_token.c:268-371, with attest_token_encode_start:
    on a failure the state stays INIT. The states that the callee rejects (286-289) are
    modelled too. Simplified: the payload is its hash and what it leaves
    of the output buffer. *)
Definition token_create (y : ssys) (c : N) (h : option (N * N)) : sres :=
  match y_pc y c, own y c with
  | PMade, Some (a, r) =>
      let x := r_ctx r in
      match t_state x, h with
      | GInit, Some (h, n) =>
          SOk (set_pc (set_rec y a (Some (set_ctx r
                (mkTctx GSign h n false (t_lock x) (t_queued x) (t_valid x) (t_err x) (t_alg x)
                        (t_cookie x) (t_ticket x) (t_siglen x) (t_buf x) (t_ehash x))))) c PIdle) []
      | _, _ => SOk (set_pc y c PIdle) []
      end
  | _, _ => SNo
  end.

(** handle_rsi_attest_token_continue, realm_attest.c:277-308: the checks of the arguments
    are not modelled, a call that fails them has no effect *)
Definition token_continue (y : ssys) (c : N) : sres :=
  match y_pc y c, own y c with
  | PIdle, Some _ => SOk (set_pc y c PLoop) []
  | _, _ => SNo
  end.

(** el3_token_sign_queue_try_enqueue, lib/attestation/src/attestation_el3_token_sign.c:30-79:
    the new ticket counter, the requests at EL3, the ticket of the context, and the result
    (0, -EAGAIN, or another error). None: it spins on the lock of the shared buffer. *)
Inductive enq := EnqOk | EnqAgain | EnqFail.
Definition enqueue (y : ssys) (x : tctx) (r : el3_push) : option (N * list sreq * N * enq) :=
  if negb (t_alg x) then Some (y_ticket y, y_el3 y, t_ticket x, EnqFail)
  else if y_shared y then None
  else
    let t := y_ticket y in
    let t' := (t + 1) mod 2 ^ 64 in
    match r with
    | PushOk => Some (t', y_el3 y ++ [mkReq t (t_cookie x) (t_ehash x)], t, EnqOk)
    | PushAgain => Some (t', y_el3 y, t, EnqAgain)
    | PushErr => Some (t', y_el3 y, t, EnqFail)
    end.

(** attest_realm_token_sign, attestation_token.c:127-190, one round of the loop in
    realm_attest.c:308-330, and t_cose_crypto_el3_token_sign_restart,
    t_cose_el3_token_sign.c:63-146. t_cose (outside of the repository) passes the same hash
    on every round, keeps [started], and passes as the buffer for the signature the place of
    the signature in the output buffer, rmm_realm_token_buf, with all the space behind it.
    Simplified: QCBOREncode_Finish succeeds. *)
Definition token_sign (y : ssys) (c : N) (p : el3_push) : sres :=
  match y_pc y c, own y c with
  | PLoop, Some (a, r) =>
      if r_len r then SNo
      else
      match t_state (r_ctx r) with
      | GSign =>
          if t_lock (r_ctx r) then SNo
          else
          let x0 := r_ctx r in
          let x := if t_started x0 then x0
                   else mkTctx (t_state x0) (t_hash x0) (t_room x0) (t_started x0) (t_lock x0) (t_queued x0) (t_valid x0) (t_err x0)
                               true (t_cookie x0) (t_ticket x0) (t_room x0) true (t_hash x0) in
          match (if t_queued x then Some (y_ticket y, y_el3 y, t_ticket x, EnqOk) else enqueue y x p) with
          | None => SNo
          | Some (tk, q, t, e) =>
              let asked := if t_queued x then [] else match e with EnqOk => [EvAsk t (t_cookie x) (t_ehash x)] | _ => [] end in
              let queued := match e with EnqOk => true | _ => t_queued x end in
              let x' := fun st started =>
                mkTctx st (t_hash x) (t_room x) started false queued (t_valid x) (t_err x) (t_alg x)
                       (t_cookie x) t (t_siglen x) (t_buf x) (t_ehash x) in
              let out := fun len st started pc evs =>
                SOk (set_pc (mkSsys tk (y_shared y) q (y_resp y) (y_pc y) (y_run y)
                       (supd (y_rec y) a (Some (mkSrec (r_run r) (r_glock r) len (r_buf r) (x' st started))))) c pc)
                    (evs ++ asked) in
              match e with
              | EnqFail => out false GSign (t_started x) PIdle []
              | _ =>
                  if t_err x then out false GSign (t_started x) PIdle []
                  else if t_valid x then
                    if negb queued then SBad BadUnqueued
                    else if t_room x <? t_siglen x then SBad BadLen
                    else out true GCreate (t_started x) PPull [EvSigned a (t_hash x)]
                  else out false GSign true PPull []
              end
          end
      | _ => SOk (set_pc y c PIdle) []
      end
  | _, _ => SNo
  end.

(** realm_attest.c:337-341 *)
Definition irq_exit (y : ssys) (c : N) : sres :=
  match y_pc y c with PPull => SOk (set_pc y c PIdle) [] | _ => SNo end.

(** attest_el3_token_sign_pull_response_from_el3, attestation_el3_token_sign.c:101-129, and
    realm_attest.c:349-361: on an error other than E_RMM_AGAIN the lock of the shared buffer
    is kept. EL3 is trusted to answer only open requests, each once, with the ticket and the
    cookie of the request and a signature over its hash. *)
Definition token_pull (y : ssys) (c : N) (p : el3_pull) : sres :=
  match y_pc y c with
  | PPull =>
      if y_shared y then SNo
      else
      match p with
      | PullAgain => SOk (set_pc y c PLoop) []
      | PullErr => SOk (set_pc (mkSsys (y_ticket y) true (y_el3 y) (y_resp y) (y_pc y) (y_run y) (y_rec y)) c PIdle) []
      | PullOk i len =>
          match nth_error (y_el3 y) i with
          | Some q =>
              SOk (set_pc (mkSsys (y_ticket y) false (firstn i (y_el3 y) ++ skipn (S i) (y_el3 y))
                     (supd (y_resp y) c (mkResp (q_ticket q) (q_cookie q) len (Sig (q_hash q))))
                     (y_pc y) (y_run y) (y_rec y)) c PWrite)
                  [EvAnswer (q_ticket q) (q_cookie q) (q_hash q)]
          | None => SNo
          end
      end
  | _ => SNo
  end.

(** write_response_to_rec, realm_attest.c:210-262, and the start of
    attest_el3_token_write_response_to_ctx, attestation_el3_token_sign.c:143-155: for another
    REC the lock of its granule is taken; if there is no REC (any more) the answer is
    dropped. Then the lock of the context is taken. *)
Definition acquire (y : ssys) (c : N) : sres :=
  match y_pc y c, y_run y c with
  | PWrite, Some me =>
      let a := p_cookie (y_resp y c) in
      match y_rec y a with
      | Some r =>
          let x := r_ctx r in
          let locked := mkTctx (t_state x) (t_hash x) (t_room x) (t_started x) true (t_queued x) (t_valid x) (t_err x) (t_alg x)
                               (t_cookie x) (t_ticket x) (t_siglen x) (t_buf x) (t_ehash x) in
          if t_lock x then SNo
          else if a =? me then SOk (set_pc (set_rec y a (Some (set_ctx r locked))) c (PCheck a)) []
          else if r_glock r then SNo
          else SOk (set_pc (set_rec y a (Some (mkSrec (r_run r) true (r_len r) (r_buf r) locked))) c (PCheck a)) []
      | None => SOk (set_pc y c PLoop) []
      end
  | _, _ => SNo
  end.
(** attestation_el3_token_sign.c:147-182: a wrong cookie is an error (150) and, as its caller
    passes the cookie of the same answer, must not happen *)
Definition check (y : ssys) (c : N) : sres :=
  match y_pc y c with
  | PCheck a =>
      match y_rec y a with
      | Some r =>
          let x := r_ctx r in
          let p := y_resp y c in
          if negb (a =? p_cookie p) then SBad BadCookie
          else if negb (t_ticket x =? p_ticket p) then
            if (t_ticket x =? 0) || (p_ticket p <=? t_ticket x) then SOk (set_pc y c (PRel a)) [] else SBad BadTicket
          else if t_siglen x <? p_len p then
            SOk (set_pc (set_rec y a (Some (set_ctx r
                  (mkTctx (t_state x) (t_hash x) (t_room x) (t_started x) (t_lock x) (t_queued x) (t_valid x) true (t_alg x)
                          (t_cookie x) (t_ticket x) (t_siglen x) (t_buf x) (t_ehash x))))) c (PRel a)) []
          else SOk (set_pc y c (PCopy a)) []
      | None => SNo
      end
  | _ => SNo
  end.
(** attestation_el3_token_sign.c:184-186. sig_buffer is an address in the place where a CPU
    maps the auxiliary granules of the REC that it runs (SLOT_REC_AUX0), whichever REC that
    is: see the comment in realm_attest.c:243-249 *)
Definition copy (y : ssys) (c : N) : sres :=
  match y_pc y c, y_run y c with
  | PCopy a, Some me =>
      match y_rec y a with
      | Some r =>
          let x := r_ctx r in
          let p := y_resp y c in
          if negb (t_buf x) then SBad BadNull
          else
            let y1 := set_rec y a (Some (set_ctx r
                  (mkTctx (t_state x) (t_hash x) (t_room x) (t_started x) (t_lock x) (t_queued x) (t_valid x) (t_err x) (t_alg x)
                          (t_cookie x) (t_ticket x) (p_len p) (t_buf x) (t_ehash x)))) in
            match y_rec y1 me with
            | Some m => SOk (set_pc (set_rec y1 me (Some (mkSrec (r_run m) (r_glock m) (r_len m) (p_sig p) (r_ctx m)))) c (PMark a)) []
            | None => SNo
            end
      | None => SNo
      end
  | _, _ => SNo
  end.
(** attestation_el3_token_sign.c:187 *)
Definition mark (y : ssys) (c : N) : sres :=
  match y_pc y c with
  | PMark a =>
      match y_rec y a with
      | Some r =>
          let x := r_ctx r in
          SOk (set_pc (set_rec y a (Some (set_ctx r
                (mkTctx (t_state x) (t_hash x) (t_room x) (t_started x) (t_lock x) (t_queued x) true (t_err x) (t_alg x)
                        (t_cookie x) (t_ticket x) (t_siglen x) (t_buf x) (t_ehash x))))) c (PRel a)) []
      | None => SNo
      end
  | _ => SNo
  end.
(** attestation_el3_token_sign.c:189-191, realm_attest.c:268-274 and the end of the loop *)
Definition release (y : ssys) (c : N) : sres :=
  match y_pc y c, y_run y c with
  | PRel a, Some me =>
      match y_rec y a with
      | Some r =>
          let x := r_ctx r in
          SOk (set_pc (set_rec y a (Some (mkSrec (r_run r) (if a =? me then r_glock r else false) (r_len r) (r_buf r)
                (mkTctx (t_state x) (t_hash x) (t_room x) (t_started x) false (t_queued x) (t_valid x) (t_err x) (t_alg x)
                        (t_cookie x) (t_ticket x) (t_siglen x) (t_buf x) (t_ehash x))))) c PLoop) []
      | None => SNo
      end
  | _, _ => SNo
  end.

(** attest_token_continue_write_state, realm_attest.c:37-135, and attest_cca_token_create,
    attestation_token.c:192-252: the realm gets its token. Simplified: in one piece. *)
Definition token_out (y : ssys) (c : N) : sres :=
  match y_pc y c, own y c with
  | PLoop, Some (a, r) =>
      if r_len r then
        let x := r_ctx r in
        match t_state x with
        | GCreate =>
            SOk (set_pc (set_rec y a (Some (mkSrec (r_run r) (r_glock r) false (r_buf r)
                  (mkTctx GNotStarted (t_hash x) (t_room x) (t_started x) (t_lock x) (t_queued x) (t_valid x) (t_err x) (t_alg x)
                          (t_cookie x) (t_ticket x) (t_siglen x) (t_buf x) (t_ehash x))))) c PIdle)
                [EvToken a (t_hash x) (r_buf r)]
        | _ => SOk (set_pc y c PIdle) []
        end
      else SNo
  | _, _ => SNo
  end.

Definition sstep (y : ssys) (o : sop) : sres :=
  match o with
  | SRecCreate a => rec_create y a
  | SRecDestroy a => rec_destroy y a
  | SEnter c a => rec_enter y c a
  | SLeave c => rec_leave y c
  | STokenInit c => token_init y c
  | SCtxInit c heap => ctx_init y c heap
  | SCreate c h => token_create y c h
  | SContinue c => token_continue y c
  | SSign c p => token_sign y c p
  | SIrq c => irq_exit y c
  | SPull c p => token_pull y c p
  | SAcquire c => acquire y c
  | SCheck c => check y c
  | SCopy c => copy y c
  | SMark c => mark y c
  | SRelease c => release y c
  | SToken c => token_out y c
  end.

(** A schedule: what was observed is kept with the latest first. A step that does not apply
    is skipped. *)
Fixpoint srun (y : ssys) (tr : list sev) (l : list sop) : sbad + ssys * list sev :=
  match l with
  | [] => inr (y, tr)
  | o :: l =>
      match sstep y o with
      | SNo => srun y tr l
      | SBad b => inl b
      | SOk y' e => srun y' (e ++ tr) l
      end
  end.
