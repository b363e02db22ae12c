(** Model of the making of attestation tokens (lib/attestation/src/attestation_token.c), down to
    the bytes.

    QCBOR and t_cose are not part of the repository.  Their encoder is modelled after their
    documentation and RFC 8949 and 9052: items are appended with the shortest head, the head of
    a map, an array or a wrapped string is put before its content when it is closed, the first
    error sticks, and an output larger than the buffer is an error at the end.  A signature is
    96 bytes from outside (ES384). *)
From Coq Require Import NArith List Bool Ascii String.
Import ListNotations.
Local Open Scope N_scope.

Definition len (l : list N) : N := N.of_nat (List.length l).
Definition str (s : string) : list N := map N_of_ascii (list_ascii_of_string s).

(** RFC 8949, 3: k bytes, most significant first *)
Fixpoint be (k : nat) (n : N) : list N :=
  match k with
  | O => []
  | S k => be k (n / 256) ++ [n mod 256]
  end.
(** RFC 8949, 3 and 4.2.1: the shortest head of major type mt with argument n (n < 2^64) *)
Definition head (mt n : N) : list N :=
  if n <? 24 then [mt * 32 + n]
  else if n <? 2 ^ 8 then (mt * 32 + 24) :: be 1 n
  else if n <? 2 ^ 16 then (mt * 32 + 25) :: be 2 n
  else if n <? 2 ^ 32 then (mt * 32 + 26) :: be 4 n
  else (mt * 32 + 27) :: be 8 n.

(** QCBOREncodeContext: bytes of what is open innermost, number of its items; the containers
    around it, with major type, bytes before and number of items before; error *)
Record enc := mkEnc { e_out : list N; e_cnt : N; e_stack : list (N * list N * N); e_err : bool }.
(** QCBOREncode_Init *)
Definition enc_init : enc := mkEnc [] 0 [] false.
(** One item *)
Definition add (b : list N) (e : enc) : enc := mkEnc (e_out e ++ b) (e_cnt e + 1) (e_stack e) (e_err e).
(** QCBOREncode_AddUInt64, and AddInt64 for -1 - n *)
Definition add_uint (n : N) : enc -> enc := add (head 0 n).
Definition add_nint (n : N) : enc -> enc := add (head 1 n).
(** QCBOREncode_AddBytes, AddText *)
Definition add_bytes (b : list N) : enc -> enc := add (head 2 (len b) ++ b).
Definition add_text (b : list N) : enc -> enc := add (head 3 (len b) ++ b).
(** QCBOREncode_AddTag *)
Definition add_tag (t : N) (e : enc) : enc := mkEnc (e_out e ++ head 6 t) (e_cnt e) (e_stack e) (e_err e).
(** QCBOREncode_OpenMap (5), OpenArray (4), BstrWrap (2) *)
Definition open_ (mt : N) (e : enc) : enc := mkEnc [] 0 ((mt, e_out e, e_cnt e) :: e_stack e) (e_err e).
(** QCBOREncode_CloseMap, CloseArray, CloseBstrWrap2 *)
Definition close_ (mt : N) (e : enc) : enc :=
  match e_stack e with
  | (mt', o, c) :: s =>
      if mt =? mt' then
        let n := if mt =? 5 then e_cnt e / 2 else if mt =? 4 then e_cnt e else len (e_out e) in
        mkEnc (o ++ head mt n ++ e_out e) (c + 1) s (e_err e)
      else mkEnc (e_out e) (e_cnt e) (e_stack e) true
  | [] => mkEnc (e_out e) (e_cnt e) [] true
  end.
(** QCBOREncode_Finish with a buffer of [size] bytes *)
Inductive fin := FOk (l : list N) | FTooSmall | FFormat.
Definition finish (size : N) (e : enc) : fin :=
  if size <? len (e_out e) then FTooSmall
  else if e_err e then FFormat
  else match e_stack e with [] => FOk (e_out e) | _ => FFormat end.

(** lib/attestation/src/attestation_defs_priv.h:14-27 *)
Definition CCA_REALM_CHALLENGE := 10.
Definition CCA_REALM_PERSONALIZATION_VALUE := 44235.
Definition CCA_REALM_HASH_ALGM_ID := 44236.
Definition CCA_REALM_PUB_KEY := 44237.
Definition CCA_REALM_INITIAL_MEASUREMENT := 44238.
Definition CCA_REALM_EXTENSIBLE_MEASUREMENTS := 44239.
Definition CCA_REALM_PUB_KEY_HASH_ALGO_ID := 44240.
Definition CCA_REALM_PROFILE := 265.
Definition TAG_CCA_TOKEN := 399.
Definition CCA_PLAT_TOKEN := 44234.
Definition CCA_REALM_DELEGATED_TOKEN := 44241.
Definition CCA_REALM_PROFILE_STR : list N := str "tag:arm.com,2023:realm#1.0.0".
(** runtime/include/rec.h:28 *)
Definition RMM_REALM_TOKEN_BUF_SIZE := 1024.

(** attestation_token.c:30-46; RMI_HASH_SHA_256 is 0, RMI_HASH_SHA_512 is 1; None: assert *)
Definition hash_text (alg : N) : option (list N) :=
  if alg =? 0 then Some (str "sha-256") else if alg =? 1 then Some (str "sha-512") else None.
(** lib/measurement/include/measurement.h:74-90 *)
Definition measurement_size (alg : N) : option N :=
  if alg =? 0 then Some 32 else if alg =? 1 then Some 64 else None.

(** The eight bytes of a register in memory, least significant first *)
Definition le64 (v : N) : list N := rev (be 8 v).
(** What goes into a token: algorithm, measurements (64 bytes each) and RPV of the realm, and
    x1 to x8 of the caller, the challenge (runtime/rsi/realm_attest.c:178-187) *)
Record claims := mkClaims { q_alg : N; q_meas : list (list N); q_rpv : list N; q_regs : list N }.

(** attestation_token.c:111-122: what t_cose_sign_encode_start appends for COSE_Sign1 with ES384
    (-35) and without key id: tag 18, array, protected and unprotected header *)
Definition encode_start : enc :=
  close_ 5 (open_ 5 (close_ 2 (close_ 5 (add_nint 34 (add_uint 1 (open_ 5 (open_ 2
    (open_ 4 (add_tag 18 enc_init))))))))).

(** struct token_sign_cntxt: state (attestation_token.h:30-35), encoder, signed_payload *)
Inductive gstate := NotStarted | Init | Sign | Create.
Record ctx := mkCtx { t_state : gstate; t_enc : enc; t_payload : list N }.
Definition zeroed : ctx := mkCtx NotStarted enc_init [].

Inductive cres := CErr | CAssert | COk (c : ctx).

(** attestation_token.c:374-400; [heap] is whether attestation_heap_ctx_init succeeds *)
Definition ctx_init (heap : bool) (c : ctx) : ctx * bool :=
  match t_state c with
  | Init => (c, true)
  | _ => if heap then (mkCtx Init enc_init [], true) else (zeroed, false)
  end.

(** attestation_token.c:357-361: the array of the extensible measurements *)
Definition add_rems (size : N) (ms : list (list N)) (e : enc) : enc :=
  fold_left (fun e m => add_bytes (firstn (N.to_nat size) m) e) ms e.

(** attestation_token.c:268-371, with attest_token_encode_start; [signer] is whether there is a
    signing key, [pub] the result of attest_get_realm_public_key *)
Definition realm_token_create (q : claims) (signer : bool) (pub : option (list N)) (c : ctx) : cres :=
  match t_state c with
  | Init =>
      if negb (N.of_nat (List.length (q_meas q)) =? 5) then CAssert                                   (* 291 *)
      else if negb signer then CErr                                            (* 102-104, 302-304 *)
      else
        let e := open_ 5 (open_ 2 encode_start) in                             (* 306-307 *)
        let e := add_bytes (List.concat (map le64 (q_regs q))) (add_uint CCA_REALM_CHALLENGE e) in
        let e := add_bytes (q_rpv q) (add_uint CCA_REALM_PERSONALIZATION_VALUE e) in
        match pub with
        | None => CErr                                                         (* 320-323 *)
        | Some p =>
            let e := add_bytes p (add_uint CCA_REALM_PUB_KEY e) in
            match hash_text (q_alg q), hash_text 0, measurement_size (q_alg q) with
            | Some t, Some t', Some n =>
                let e := add_text t (add_uint CCA_REALM_HASH_ALGM_ID e) in
                let e := add_text t' (add_uint CCA_REALM_PUB_KEY_HASH_ALGO_ID e) in
                let e := add_text CCA_REALM_PROFILE_STR (add_uint CCA_REALM_PROFILE e) in
                let e := add_bytes (firstn (N.to_nat n) (nth 0 (q_meas q) [])) (add_uint CCA_REALM_INITIAL_MEASUREMENT e) in
                let e := close_ 4 (add_rems n (tl (q_meas q)) (open_ 4 (add_uint CCA_REALM_EXTENSIBLE_MEASUREMENTS e))) in
                let e := close_ 5 e in
                COk (mkCtx Sign (close_ 2 e) (e_out e))                        (* 365-369 *)
            | _, _, _ => CAssert
            end
        end
  | _ => CErr                                                                  (* 287-289 *)
  end.

(** What the signer does in one call (t_cose_sign_encode_finish): goes on, fails, or ends with a
    signature of the payload *)
Inductive sig := InProgress | SigFail | Sig (s : list N).
(** attestation_token.c:127-190, with a buffer of RMM_REALM_TOKEN_BUF_SIZE; yields the realm
    token when it is complete *)
Definition realm_token_sign (g : sig) (c : ctx) : ctx * option (list N) :=
  match t_state c with
  | Sign =>
      match g with
      | InProgress | SigFail => (c, None)
      | Sig s =>
          let e := close_ 4 (add_bytes s (t_enc c)) in
          match finish RMM_REALM_TOKEN_BUF_SIZE e with
          | FOk t => (mkCtx Create e (t_payload c), Some t)
          | _ => (mkCtx Sign e (t_payload c), None)
          end
      end
  | _ => (c, None)
  end.

(** attestation_token.c:192-252; [size] is REC_ATTEST_TOKEN_BUF_SIZE, [plat] the result of
    attest_get_platform_token *)
Definition cca_token_create (size : N) (plat : option (list N)) (realm : list N) (c : ctx) : ctx * option (list N) :=
  match t_state c, plat with
  | Create, Some p =>
      let e := open_ 5 (add_tag TAG_CCA_TOKEN enc_init) in
      let e := add_bytes p (add_uint CCA_PLAT_TOKEN e) in
      let e := add_bytes realm (add_uint CCA_REALM_DELEGATED_TOKEN e) in
      match finish size (close_ 5 e) with
      | FOk t => (mkCtx NotStarted (t_enc c) (t_payload c), Some t)
      | _ => (c, None)
      end
  | _, _ => (c, None)
  end.
