(** Model of the start of attestation: the attestation key and the platform token that RMM takes
    from EL3 (lib/attestation/src/attestation_key.c, lib/rmm_el3_ifc/src/rmm_el3_runtime.c).

    EL3 is free: its answers are a list given from outside, each with the registers it returns
    and the buffer that RMM shares with it as EL3 leaves it.  The crypto library is a record of
    functions.  One CPU runs this at boot; the lock of the shared buffer is a flag. *)
From Coq Require Import NArith ZArith List Bool.
Import ListNotations.
Local Open Scope N_scope.

(** lib/rmm_el3_ifc/include/rmm_el3_ifc.h:198-201: size of the shared buffer *)
Definition SHARED_SIZE := 4096.
(** lib/attestation/src/attestation_key.c:34-35: PSA_KEY_EXPORT_ECC_PUBLIC_KEY_MAX_SIZE(384) is 97 *)
Definition PUBLIC_KEY_SIZE := 129.
(** attestation_key.c:56: PSA_HASH_LENGTH(PSA_ALG_SHA_256) *)
Definition HASH_SIZE := 32.
(** lib/rmm_el3_ifc/include/rmm_el3_ifc.h:27 *)
Definition E_RMM_AGAIN : Z := (-6)%Z.
(** lib/libc/include/errno.h *)
Definition EINVAL : Z := (-22)%Z.
Definition ENOMEM : Z := (-12)%Z.

Definition buf := N -> N.
(** memcpy of n bytes *)
Definition put (b : buf) (at_ : N) (src : buf) (n : N) : buf :=
  fun x => if (at_ <=? x) && (x <? at_ + n) then src (x - at_) else b x.
Definition of_list (l : list N) : buf := fun i => nth (N.to_nat i) l 0.
Definition bytes (b : buf) (n : N) : list N := map (fun k => b (N.of_nat k)) (seq 0 (N.to_nat n)).

(** The answer of EL3 to a call: x0, x1, x2, and the shared buffer after it *)
Record ans := mkAns { a0 : N; a1 : N; a2 : N; abuf : buf }.

(** (int) of a 64-bit register *)
Definition int32 (v : N) : Z :=
  let w := v mod 2 ^ 32 in if w <? 2 ^ 31 then Z.of_N w else (Z.of_N w - 2 ^ 32)%Z.

(** What attestation_key.c keeps (40-65) *)
Record state := mkState {
  s_locked : bool;           (* lock of the shared buffer *)
  s_shared : buf;            (* shared buffer *)
  s_loaded : bool;           (* attest_key_loaded *)
  s_key : list N;            (* the key behind imported_key *)
  s_pub : list N;            (* realm_attest_public_key, of its length *)
  s_hash : list N;           (* realm_attest_public_key_hash *)
  s_tok : buf;               (* rmm_platform_token_buf *)
  s_token : option N         (* rmm_platform_token: None for a NULL pointer, or the length *)
}.
Definition init : state := mkState false (fun _ => 0) false [] [] [] (fun _ => 0) None.

Inductive outcome :=
| Ret (r : Z) (s : state) (calls : list (N * list N))  (* returns; the calls to EL3: hash_size and the first 32 bytes of the buffer *)
| Assert                                               (* an assertion fails *)
| Bad                                                  (* memory outside of the buffers is read or written *)
| Waiting.                                             (* calls EL3 again after the answers given *)

Record crypto := mkCrypto {
  c_import : list N -> bool;             (* psa_import_key *)
  c_encode : list N -> option (list N);  (* t_cose_key_encode: the public key as COSE_Key *)
  c_sha : list N -> option (list N)      (* psa_hash_compute, SHA-256 *)
}.

Definition unlock (s : state) (b : buf) : state :=
  mkState false b (s_loaded s) (s_key s) (s_pub s) (s_hash s) (s_tok s) (s_token s).

(** attestation_key.c:77-199, with rmm_el3_ifc_get_realm_attest_key_internal
    (rmm_el3_runtime.c:73-95); [el3] is ATTEST_EL3_TOKEN_SIGN.  The error of EL3 is an int, too *)
Definition init_key (c : crypto) (el3 : bool) (a : ans) (s : state) : outcome :=
  if s_loaded s then Ret EINVAL s []                                               (* 96-99 *)
  else if negb (a0 a =? 0) && negb (int32 (a0 a) =? 0)%Z then Ret EINVAL (unlock s (abuf a)) []
  else
    let size := a1 a in                                       (* if x0 is not 0 it has no value, see below *)
    if negb (a0 a =? 0) then Bad
    else if (SHARED_SIZE <? size) || el3 && (PUBLIC_KEY_SIZE <? size) then Bad     (* 119, 128, 148, 155 *)
    else
      let k := bytes (abuf a) size in
      let s := unlock s (if el3 then abuf a else put (abuf a) 0 (fun _ => 0) size) in
      if negb (c_import c k) then Ret EINVAL s []                                  (* 159-163 *)
      else match c_encode c k with
           | None => Ret EINVAL s []                                               (* 173-178 *)
           | Some p =>
               match c_sha c p with
               | None => Ret EINVAL s []                                           (* 190-195 *)
               | Some h => Ret 0 (mkState (s_locked s) (s_shared s) true k p h (s_tok s) (s_token s)) []
               end
           end.

(** rmm_el3_runtime.c:114-147; [old] is a version of the interface below 0.3, [hunk] and [rem]
    are the values of the variables before the call *)
Definition get_platform_token (old : bool) (a : ans) (hunk rem : N) : Z * N * N :=
  if negb (a0 a =? 0) then (int32 (a0 a), hunk, rem)
  else (0%Z, a1 a, if old then 0 else a2 a).

(** attestation_key.c:285-330; [cap] is ATTEST_PLAT_TOKEN_SIZE *)
Fixpoint hunks (old : bool) (cap : N) (s : state) (answers : list ans) (shared : buf)
    (hash_len off hunk rem : N) (tok : buf) (calls : list (N * list N)) : outcome :=
  match answers with
  | [] => Waiting
  | a :: answers =>
      let '(ret, hunk, rem) := get_platform_token old a hunk rem in
      let calls := calls ++ [(hash_len, bytes shared HASH_SIZE)] in
      let s' := mkState false (abuf a) (s_loaded s) (s_key s) (s_pub s) (s_hash s) tok (s_token s) in
      if (ret =? E_RMM_AGAIN)%Z then hunks old cap s answers (abuf a) hash_len off hunk rem tok calls
      else if negb (ret =? 0)%Z then Ret EINVAL s' calls                           (* 298-301 *)
      else if hunk =? 0 then Assert                                                (* 303 *)
      else if cap <? (off + hunk + rem) mod 2 ^ 64 then Ret ENOMEM s' calls        (* 305-310 *)
      else if (SHARED_SIZE <? hunk) || (cap <? off + hunk) then Bad                (* 313-315 *)
      else
        let tok := put tok off (abuf a) hunk in
        let off := off + hunk in
        if 0 <? rem then hunks old cap s answers (abuf a) 0 off hunk rem tok calls
        else Ret 0 (mkState false (abuf a) (s_loaded s) (s_key s) (s_pub s) (s_hash s) tok (Some off)) calls
  end.

(** attestation_key.c:255-333 *)
Definition setup_token (old : bool) (cap : N) (answers : list ans) (s : state) : outcome :=
  if negb (s_loaded s) then Ret EINVAL s []                                        (* 272-276 *)
  else
    let shared := put (s_shared s) 0 (of_list (s_hash s)) (N.of_nat (length (s_hash s))) in   (* 282-283 *)
    hunks old cap s answers shared HASH_SIZE 0 0 0 (s_tok s) [].

(** attestation_key.c:335-347 *)
Definition get_token (s : state) : option (list N) :=
  match s_token s with Some n => Some (bytes (s_tok s) n) | None => None end.
(** attestation_key.c:243-253 *)
Definition get_public_key (s : state) : option (list N) := if s_loaded s then Some (s_pub s) else None.
(** attestation_key.c:201-217: the key to sign with *)
Definition get_signing_key (el3 : bool) (s : state) : option (list N) :=
  if el3 then None else if s_loaded s then Some (s_key s) else None.
