(** What an attestation token says, as CBOR items, and histories of the calls that make one. *)
From Coq Require Import NArith List Bool Ascii String.
From Verif Require Import Cca SpecCbor.
Import ListNotations.
Local Open Scope N_scope.

(** Realm token claims (RMM specification, A7.2.3.1, with the keys of the CCA token profile) for a
    realm q and the public key p of the attestation key *)
Definition meas_bytes (q : claims) : nat := if q_alg q =? 0 then 32%nat else 64%nat.
(** x1 to x8 as 64 bytes, the least significant byte of x1 first *)
Definition challenge (regs : list N) : list N :=
  map (fun k : nat => nth (Nat.div k 8) regs 0 / 256 ^ N.of_nat (Nat.modulo k 8) mod 256) (seq 0 64).
Definition realm_claims (q : claims) (p : list N) : item :=
  Map [(UInt 10, Bytes (challenge (q_regs q)));
       (UInt 44235, Bytes (q_rpv q));
       (UInt 44237, Bytes p);
       (UInt 44236, Text (str (if q_alg q =? 0 then "sha-256" else "sha-512")));
       (UInt 44240, Text (str "sha-256"));
       (UInt 265, Text (str "tag:arm.com,2023:realm#1.0.0"));
       (UInt 44238, Bytes (firstn (meas_bytes q) (nth 0 (q_meas q) [])));
       (UInt 44239, Array (map (fun k => Bytes (firstn (meas_bytes q) (nth k (q_meas q) []))) [1; 2; 3; 4]%nat))].
(** COSE_Sign1 (RFC 9052, 4.2) with the protected header {1: -35}, ES384 *)
Definition sign1 (payload s : list N) : item :=
  Tag 18 (Array [Bytes [161; 1; 56; 34]; Map []; Bytes payload; Bytes s]).
Definition cca (plat realm : list N) : item :=
  Tag 399 (Map [(UInt 44234, Bytes plat); (UInt 44241, Bytes realm)]).

(** A realm as RMM keeps it, and a public key as PlatToken keeps it *)
Definition wf_claims (q : claims) : Prop :=
  (q_alg q = 0 \/ q_alg q = 1) /\ List.length (q_meas q) = 5%nat /\ Forall (fun m => List.length m = 64%nat) (q_meas q) /\
  List.length (q_rpv q) = 64%nat /\ List.length (q_regs q) = 8%nat.
Definition wf_pub (p : list N) : Prop := len p <= 129.

(** The calls made for one REC.  The state holds the context and the realm token once it is
    complete.  [heap] is whether the heap of the REC can be set up, [signer] and [pub] whether
    there is a signing key and its public key, [g] what the signer does *)
Inductive op :=
| OInit (q : claims) (heap signer : bool) (pub : option (list N))
| OSign (g : sig)
| OCreate (plat : option (list N)).
Record sys := mkSys { y_ctx : ctx; y_realm : list N }.
Definition sys0 : sys := mkSys zeroed [].
Inductive out := Nothing | Done | RealmToken (t : list N) | Token (t : list N) | Stopped.
(** RSI_ATTESTATION_TOKEN_INIT makes the context and the claims (runtime/rsi/realm_attest.c:
    ctx_init, then attest_realm_token_create); Stopped: an assert fails *)
Definition step (size : N) (s : sys) (o : op) : sys * out :=
  match o with
  | OInit q heap signer pub =>
      let '(c, ok) := ctx_init heap (y_ctx s) in
      if ok then
        match realm_token_create q signer pub c with
        | COk c => (mkSys c [], Done)
        | CErr => (mkSys c [], Nothing)
        | CAssert => (s, Stopped)
        end
      else (mkSys c [], Nothing)
  | OSign g =>
      match realm_token_sign g (y_ctx s) with
      | (c, Some t) => (mkSys c t, RealmToken t)
      | (c, None) => (mkSys c (y_realm s), Nothing)
      end
  | OCreate plat =>
      match cca_token_create size plat (y_realm s) (y_ctx s) with
      | (c, Some t) => (mkSys c (y_realm s), Token t)
      | (c, None) => (mkSys c (y_realm s), Nothing)
      end
  end.
Definition run (size : N) (ops : list op) : sys := fold_left (fun s o => fst (step size s o)) ops sys0.
Definition wf_op (o : op) : Prop :=
  match o with
  | OInit q _ _ pub => wf_claims q /\ match pub with Some p => wf_pub p | None => True end
  | OSign (Sig s) => List.length s = 96%nat
  | OSign _ => True
  | OCreate (Some p) => len p < 2 ^ 32
  | OCreate None => True
  end.
Definition is_init (o : op) : Prop := match o with OInit _ _ _ _ => True | _ => False end.
(** What was asked for in a history: claims q with public key p, then signature s, and no other
    request since *)
Definition asked (ops : list op) (q : claims) (p s : list N) : Prop :=
  exists pre heap mid post, ops = pre ++ OInit q heap true (Some p) :: mid ++ OSign (Sig s) :: post /\
    Forall (fun o => ~ is_init o) (mid ++ post).
(** A token made of platform token [plat] and of a realm token for claims q and public key p
    signed with s *)
Definition token_of (t plat : list N) (q : claims) (p s : list N) : Prop :=
  exists payload realm, is_item t (cca plat realm) /\ is_item realm (sign1 payload s) /\ is_item payload (realm_claims q p).
(** The claims that reach a verifier *)
Definition same_claims (q q' : claims) : Prop :=
  q_alg q = q_alg q' /\ q_rpv q = q_rpv q' /\ q_regs q = q_regs q' /\
  map (firstn (meas_bytes q)) (q_meas q) = map (firstn (meas_bytes q)) (q_meas q').
