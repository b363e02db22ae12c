(** Model of the services the monitor offers to a running realm: runtime/rsi and
    the dispatcher runtime/core/exit.c:384-474. *)
From Coq Require Import NArith ZArith List Bool.
From Verif Require Import Bits S2tte State Granule RecFields Measure RmiRtt RmiRealm RmiRec Psci Gic Esr.
Import ListNotations.
Local Open Scope N_scope.

(* ------------------------------------------------------------------ *)
(** * Bytes of realm memory *)

(** Byte [n] of a granule or of an array of registers (little endian) *)
Definition get_byte (f : N -> N) (n : N) : N := (f (n / 8) / 2 ^ (8 * (n mod 8))) mod 256.

(** memcpy of [len] bytes, the first to byte [off] of the granule *)
Definition put_bytes (f : N -> N) (off len : N) (src : N -> N) : N -> N :=
  fun w =>
    if (8 * w + 7 <? off) || (off + len <=? 8 * w) then f w
    else
      let byte k := let n := 8 * w + k in
        (if (off <=? n) && (n <? off + len) then src (n - off) mod 256 else get_byte f n) * 2 ^ (8 * k) in
      fold_right (fun k acc => byte k + acc) 0 [0; 1; 2; 3; 4; 5; 6; 7].

(** Word [i] of a digest; digests and the realm personalization value are
    little-endian numbers *)
Definition digest_word (d i : N) : N := (d / 2 ^ (64 * i)) mod 2 ^ 64.

(* ------------------------------------------------------------------ *)
(** * State of a call *)

(** rec.h:186-200, struct rec_attest_data, and the buffer of the CCA token; the
    signing context is part of the environment *)
Record att := mkAtt { a_realm_len : N; a_copied : N; a_len : N; a_buf : N -> N }.
Definition att_zero : att := mkAtt 0 0 0 (fun _ => 0).

(** A REC that runs: its structure, the exit record under construction and its
    attestation data *)
Record vcpu := mkV { v_rec : recd; v_exit : rec_exit; v_att : att }.
Definition v_set_rec (v : vcpu) (r : recd) : vcpu := mkV r (v_exit v) (v_att v).
Definition v_set_exit (v : vcpu) (x : rec_exit) : vcpu := mkV (v_rec v) x (v_att v).
Definition v_set_att (v : vcpu) (a : att) : vcpu := mkV (v_rec v) (v_exit v) a.

(** What the attestation library and the interrupt controller do during one
    call.  [ae_sign] is the outcome of the signing loop: the length of the realm
    token; a call in the wrong state; a failure; or an interrupt, with the
    length the last iteration stored. *)
Inductive sign_out := SgDone (len : N) | SgState | SgFail | SgIrq (len : N).
Record att_env := mkAttEnv {
  ae_init : bool;                     (* attest_token_ctx_init succeeds *)
  ae_create : bool;                   (* attest_realm_token_create succeeds *)
  ae_sign : sign_out;
  ae_cca : option (N * (N -> N))      (* attest_cca_token_create: length and bytes *)
}.

(** rsi-handler.h:14-60: enum rsi_action as its three flags, struct rsi_result *)
Record rsi := mkRsi { ra_update : bool; ra_exit : bool; ra_abort : bool; ra_x : res; ra_level : Z }.
Definition ret_realm (x : res) : rsi := mkRsi true false false x 0.
Definition ret_host (x : res) : rsi := mkRsi true true false x 0.
Definition exit_host (x : res) : rsi := mkRsi false true false x 0.
Definition s2_fault (x : res) (level : Z) : rsi := mkRsi false true true x level.

(** exit.c:397-399: x4 keeps its value unless the call returns a result there *)
Definition rx (r : recd) (x0 x1 x2 x3 : N) : res := mkRes x0 x1 x2 x3 (r_regs r 4).
Definition rx0 (r : recd) (x0 : N) : res := rx r x0 0 0 0.

(** smc-rsi.h:48-90 *)
Definition RSI_ERROR_UNKNOWN : N := 4.
Definition RSI_ABI_VERSION : N := 65536.
Definition SMCCC_VERSION_NUMBER : N := 65538.
Definition SMC_UNKNOWN : N := 2 ^ 64 - 1.

(** smc-rmi.h:300-320 *)
Definition RMI_EXIT_SYNC : N := 0.
Definition RMI_EXIT_IRQ : N := 1.
Definition RMI_EXIT_FIQ : N := 2.
Definition RMI_EXIT_PSCI : N := 3.
Definition RMI_EXIT_RIPAS_CHANGE : N := 4.
Definition RMI_EXIT_HOST_CALL : N := 5.
Definition RMI_EXIT_SERROR : N := 6.

Definition u32 (v : N) : N := v mod 2 ^ 32.

(* ------------------------------------------------------------------ *)
(** * Translation of realm addresses *)

(** realm.h: enum s2_walk_status and struct s2_walk_result; with [WOk] the last
    table is left locked *)
Inductive walk_out := WOk (llt pa : N) (level : Z) | WInvalid | WFail (r : ripas) (level : Z).

(** realm_ipa_helper.c:39-94 *)
Definition realm_ipa_to_pa (c : cfg) (r : recd) (ipa : N) : prog walk_out :=
  if negb (is_aligned_granule ipa) || negb (addr_in_rec_par r ipa) then Ret WInvalid
  else
    let x := r_ctx r in
    granule_lock (g_rtt x) RTT ;;;
    wi <- s2tt_walk_lock_unlock c x ipa S2TT_PAGE_LEVEL ;;
    map_slot SLOT_RTT ;;;
    w <- rd_word (w_llt wi) (w_index wi) ;;
    out <-
      (if s2tte_is_assigned_ram w (w_level wi) then
         pa <- s2tte_pa_ x w (w_level wi) ;;
         let offset := N.land ipa (s2tte_map_size (w_level wi) - 1) in
         Ret (WOk (w_llt wi) (pa + offset) (w_level wi))
       else
         let v := if s2tte_is_unassigned_destroyed w || s2tte_is_assigned_destroyed w (w_level wi) then DESTROYED
                  else if s2tte_is_unassigned_ram w then RAM else EMPTY in
         granule_unlock (w_llt wi) ;;;
         Ret (WFail v (w_level wi))) ;;
    unmap_slot SLOT_RTT ;;;
    Ret out.

Definition ripas_eqb (a b : ripas) : bool :=
  match a, b with EMPTY, EMPTY | RAM, RAM | DESTROYED, DESTROYED => true | _, _ => false end.

(** realm_ipa_helper.c:139-160: the loop over the entries of the table; yields
    the address it stops at and the RIPAS of the first entry *)
Fixpoint ripas_loop (fuel : nat) (f : N -> N) (index start addr map_size end_ : N) (level : Z) (res : ripas)
  : option (N * ripas) :=
  match fuel with
  | O => Some (addr, res)
  | S fuel' =>
    let w := f index in
    if negb (s2tte_has_ripas w level) then Some (addr, res)
    else
      match (if s2tte_is_assigned_ram w level then Some RAM else s2tte_get_ripas w) with
      | None => None                                  (* assertion in s2tte_get_ripas *)
      | Some tmp =>
        if (addr =? start) || ripas_eqb tmp res then
          let res' := if addr =? start then tmp else res in
          let addr' := addr + map_size in
          if end_ <=? addr' then Some (addr', res')
          else ripas_loop fuel' f (index + 1) start addr' map_size end_ level res'
        else Some (addr, res)
      end
  end.

(** realm_ipa_helper.c:110-172; [None] is WALK_FAIL *)
Definition realm_ipa_get_ripas (c : cfg) (r : recd) (start end_ : N) : prog (option (N * ripas)) :=
  assert_ (is_aligned_granule start && is_aligned_granule end_) ;;;
  assert_ (addr_in_rec_par r start && addr_in_rec_par r (end_ - 1)) ;;;
  let x := r_ctx r in
  granule_lock (g_rtt x) RTT ;;;
  wi <- s2tt_walk_lock_unlock c x start S2TT_PAGE_LEVEL ;;
  map_slot SLOT_RTT ;;;
  f <- get_table (w_llt wi) ;;
  let map_size := s2tte_map_size (w_level wi) in
  let start' := start - N.land start (map_size - 1) in
  match ripas_loop (N.to_nat (512 - w_index wi)) f (w_index wi) start' start' map_size end_ (w_level wi) EMPTY with
  | None => Panic
  | Some (addr, v) =>
    unmap_slot SLOT_RTT ;;;
    granule_unlock (w_llt wi) ;;;
    Ret (if negb (addr =? start') then Some (addr, v) else None)
  end.

Definition ripas_code (v : ripas) : N :=
  match v with EMPTY => RIPAS_EMPTY | RAM => RIPAS_RAM | DESTROYED => RIPAS_DESTROYED end.

(* ------------------------------------------------------------------ *)
(** * Address space *)

(** realm.h:160-204 *)
Definition region_in_rec_par (r : recd) (base end_ : N) : bool :=
  negb (end_ - 1 <? base) && addr_in_rec_par r base && addr_in_rec_par r (end_ - 1).

(** memory.c:12-45; enum ripas and enum ripas_change_destroyed have 32 bits *)
Definition handle_rsi_ipa_state_set (v : vcpu) : prog (vcpu * rsi) :=
  let r := v_rec v in
  let base := r_regs r 1 in
  let top := r_regs r 2 in
  let ripas_val := u32 (r_regs r 3) in
  let change_destroyed := u32 (r_regs r 4) in
  if (RIPAS_RAM <? ripas_val) || negb (is_aligned_granule base) || negb (is_aligned_granule top)
     || (top <=? base) || negb (region_in_rec_par r base top)
  then Ret (v, ret_realm (rx0 r RSI_ERROR_INPUT))
  else
    let r1 := set_req r (mkReq base top base ripas_val change_destroyed (sr_response (r_set_ripas r))) in
    let x1 := ex_set_ripas (ex_set_reason (v_exit v) RMI_EXIT_RIPAS_CHANGE) base top (ripas_val mod 256) in
    Ret (mkV r1 x1 (v_att v), ret_host (rx r RSI_SUCCESS top 0 0)).

(** memory.c:47-73; [end - 1] wraps around when [end] is 0 *)
Definition handle_rsi_ipa_state_get (c : cfg) (v : vcpu) : prog (vcpu * rsi) :=
  let r := v_rec v in
  let start := r_regs r 1 in
  let end_ := r_regs r 2 in
  if negb (is_aligned_granule start) || negb (addr_in_rec_par r start) ||
     negb (is_aligned_granule end_) || negb (addr_in_rec_par r (if end_ =? 0 then 2 ^ 64 - 1 else end_ - 1)) || (end_ <=? start)
  then Ret (v, ret_realm (rx0 r RSI_ERROR_INPUT))
  else
    o <- realm_ipa_get_ripas c r start end_ ;;
    match o with
    | Some (top, val) => Ret (v, ret_realm (rx r RSI_SUCCESS (if end_ <? top then end_ else top) (ripas_code val) 0))
    | None => Ret (v, ret_realm (rx0 r RSI_ERROR_INPUT))
    end.

(* ------------------------------------------------------------------ *)
(** * Configuration and host calls *)

(** system.c:13-25 and feature.c:9-18 *)
Definition handle_rsi_version (v : vcpu) : prog (vcpu * rsi) :=
  let r := v_rec v in
  Ret (v, ret_realm (rx r (if r_regs r 1 =? RSI_ABI_VERSION then RSI_SUCCESS else RSI_ERROR_INPUT)
                        RSI_ABI_VERSION RSI_ABI_VERSION 0)).
Definition handle_rsi_features (v : vcpu) : prog (vcpu * rsi) :=
  Ret (v, ret_realm (rx0 (v_rec v) RSI_SUCCESS)).

(** smc-rsi.h:316-323: the members that are written; algorithm is one byte *)
Definition config_words (f : N -> N) (ipa_bits alg rpv : N) : N -> N :=
  fun w =>
    if w =? 0 then ipa_bits
    else if w =? 1 then N.lor (N.ldiff (f 1) 255) (if alg =? 0 then 0 else 1)
    else if (64 <=? w) && (w <? 72) then digest_word rpv (w - 64)
    else f w.

(** config.c:14-78 *)
Definition handle_rsi_realm_config (c : cfg) (v : vcpu) : prog (vcpu * rsi) :=
  let r := v_rec v in
  let ipa := r_regs r 1 in
  if negb (is_aligned_granule ipa) || negb (addr_in_rec_par r ipa)
  then Ret (v, ret_realm (rx0 r RSI_ERROR_INPUT))
  else
    o <- realm_ipa_to_pa c r ipa ;;
    match o with
    | WFail EMPTY _ => Ret (v, ret_realm (rx0 r RSI_ERROR_INPUT))
    | WFail _ level => Ret (v, s2_fault (rx0 r 0) level)
    | WInvalid => Ret (v, ret_realm (rx0 r RSI_ERROR_INPUT))
    | WOk llt pa _ =>
      assert_ (find_granule c pa) ;;;
      map_slot SLOT_RSI_CALL ;;;
      f <- get_table pa ;;
      map_slot SLOT_RD ;;;
      d <- get_rd (r_g_rd r) ;;
      wr_mem pa (CW (config_words f (ipa_bits (r_ctx r)) (r_algorithm r) (rd_rpv d))) ;;;
      unmap_slot SLOT_RD ;;;
      unmap_slot SLOT_RSI_CALL ;;;
      granule_unlock llt ;;;
      Ret (v, ret_realm (rx0 r RSI_SUCCESS))
    end.

(** smc-rsi.h:327-334: an imm of 32 bits at offset 0, 31 registers from offset 8 *)
Definition host_call_imm (f : N -> N) (o : N) : N := u32 (f (o / 8)).
Definition host_call_gprs (f : N -> N) (o : N) : N -> N := fun i => if i <? 31 then f (o / 8 + 1 + i) else 0.
Definition host_call_write (f : N -> N) (o : N) (gprs : N -> N) : N -> N :=
  fun w => if (o / 8 + 1 <=? w) && (w <? o / 8 + 32) then gprs (w - (o / 8 + 1)) else f w.

(** host_call.c:29-105 with rec_exit set *)
Definition do_host_call_exit (c : cfg) (v : vcpu) : prog (vcpu * rsi) :=
  let r := v_rec v in
  let ipa := r_regs r 1 in
  assert_ (addr_in_rec_par r ipa) ;;;
  let page_ipa := ipa - ipa mod 4096 in
  o <- realm_ipa_to_pa c r page_ipa ;;
  match o with
  | WFail EMPTY _ => Ret (v, ret_realm (rx0 r RSI_ERROR_INPUT))
  | WFail _ level => Ret (v, s2_fault (rx0 r 0) level)
  | WInvalid => Panic
  | WOk llt pa _ =>
    assert_ (find_granule c pa) ;;;
    map_slot SLOT_RSI_CALL ;;;
    f <- get_table pa ;;
    let x1 := ex_set_imm (v_exit v) (host_call_imm f (ipa - page_ipa)) in
    let x2 := ex_set_gprs x1 (host_call_gprs f (ipa - page_ipa)) in
    unmap_slot SLOT_RSI_CALL ;;;
    granule_unlock llt ;;;
    Ret (mkV (set_host_call r true) (ex_set_reason x2 RMI_EXIT_HOST_CALL) (v_att v), exit_host (rx0 r 0))
  end.

(** host_call.c:107-131 *)
Definition handle_rsi_host_call (c : cfg) (v : vcpu) : prog (vcpu * rsi) :=
  let r := v_rec v in
  let ipa := r_regs r 1 in
  if negb (ipa mod 256 =? 0) then Ret (v, ret_realm (rx0 r RSI_ERROR_INPUT))
  else if negb (ipa / 4096 =? wrap64 (ipa + 255) / 4096) then Ret (v, ret_realm (rx0 r RSI_ERROR_INPUT))
  else if negb (addr_in_rec_par r ipa) then Ret (v, ret_realm (rx0 r RSI_ERROR_INPUT))
  else do_host_call_exit c v.

(** host_call.c:29-105 with rec_enter set, and 133-156; yields the REC and the
    level of the walk when the address is not mapped *)
Definition complete_rsi_host_call (c : cfg) (r : recd) (e : rec_enter) : prog (recd * option Z) :=
  let ipa := r_regs r 1 in
  assert_ (addr_in_rec_par r ipa) ;;;
  let page_ipa := ipa - ipa mod 4096 in
  o <- realm_ipa_to_pa c r page_ipa ;;
  match o with
  | WFail EMPTY _ => Ret (r, None)
  | WFail _ level => Ret (r, Some level)
  | WInvalid => Panic
  | WOk llt pa _ =>
    assert_ (find_granule c pa) ;;;
    map_slot SLOT_RSI_CALL ;;;
    f <- get_table pa ;;
    wr_mem pa (CW (host_call_write f (ipa - page_ipa) (en_gprs e))) ;;;
    unmap_slot SLOT_RSI_CALL ;;;
    granule_unlock llt ;;;
    Ret (set_reg r 0 RSI_SUCCESS, None)
  end.

(* ------------------------------------------------------------------ *)
(** * Measurements and attestation *)

Definition MEASUREMENT_SLOT_NR : N := 5.
Definition MAX_EXTENDED_SIZE : N := 64.
Definition REC_ATTEST_TOKEN_BUF_SIZE : N := 4096.

(** measurement.h: measurement_get_size in words; SHA-256 is 0 and SHA-512 is 1 *)
Definition measurement_words (alg : N) : N := if alg =? 0 then 4 else 8.

(** The bytes of x3..x10 that are used *)
Definition extend_bytes (regs : N -> N) (size : N) : list N :=
  map (fun k => get_byte (fun i => regs (3 + i)) (N.of_nat k)) (seq 0 (N.to_nat size)).

(** realm_attest.c:379-440 and lib/measurement/src/measurement.c: do_extend
    hashes the current value followed by the bytes *)
Definition handle_rsi_measurement_extend (c : cfg) (v : vcpu) : prog (vcpu * rsi) :=
  let r := v_rec v in
  let rd := r_g_rd r in
  ok <- find_lock_granule c rd RD ;;
  assert_ ok ;;;
  map_slot SLOT_RD ;;;
  d <- get_rd rd ;;
  let index := r_regs r 1 in
  let size := r_regs r 2 in
  x <- (if (index =? 0) || (MEASUREMENT_SLOT_NR <=? index) then Ret RSI_ERROR_INPUT
        else if MAX_EXTENDED_SIZE <? size then Ret RSI_ERROR_INPUT
        else
          put_rd rd (set_meas d index (c_hash c (rd_algorithm d) (rd_meas d index :: extend_bytes (r_regs r) size))) ;;;
          Ret RSI_SUCCESS) ;;
  unmap_slot SLOT_RD ;;;
  granule_unlock rd ;;;
  Ret (v, ret_realm (rx0 r x)).

(** realm_attest.c:442-499: words 0..3 go to the result, the others to x5..x8 *)
Definition measurement_regs (regs : N -> N) (cnt m : N) : N -> N :=
  fun i => if (5 <=? i) && (i <? 9) then (if i - 1 <? cnt then digest_word m (i - 1) else 0) else regs i.
Definition handle_rsi_measurement_read (v : vcpu) : prog (vcpu * rsi) :=
  let r := v_rec v in
  let idx := r_regs r 1 in
  if MEASUREMENT_SLOT_NR <=? idx then Ret (v, ret_realm (rx0 r RSI_ERROR_INPUT))
  else
    granule_lock (r_g_rd r) RD ;;;
    map_slot SLOT_RD ;;;
    d <- get_rd (r_g_rd r) ;;
    let m := rd_meas d idx in
    let cnt := measurement_words (rd_algorithm d) in
    unmap_slot SLOT_RD ;;;
    granule_unlock (r_g_rd r) ;;;
    Ret (v_set_rec v (set_regs r (measurement_regs (r_regs r) cnt m)),
         ret_realm (mkRes RSI_SUCCESS (digest_word m 0) (digest_word m 1) (digest_word m 2) (digest_word m 3))).

(** realm_attest.c:137-199 *)
Definition handle_rsi_attest_token_init (env : att_env) (v : vcpu) : prog (vcpu * rsi) :=
  let r := v_rec v in
  let v1 := v_set_att v (mkAtt 0 0 0 (a_buf (v_att v))) in
  if negb (ae_init env) then Ret (v1, ret_realm (rx0 r RSI_ERROR_UNKNOWN))
  else
    granule_lock (r_g_rd r) RD ;;;
    map_slot SLOT_RD ;;;
    d <- get_rd (r_g_rd r) ;;
    unmap_slot SLOT_RD ;;;
    granule_unlock (r_g_rd r) ;;;
    if negb (ae_create env) then Ret (v1, ret_realm (rx0 r RSI_ERROR_UNKNOWN))
    else Ret (v1, ret_realm (rx r RSI_SUCCESS REC_ATTEST_TOKEN_BUF_SIZE 0 0)).

(** realm_attest.c:83-125: one step of the copy; [size] is not 0.  Yields the new
    attestation data, and the number of bytes copied and whether the token is
    complete, or nothing when the token cannot be created. *)
Definition write_state (env : att_env) (a : att) (size : N) : att * option (N * bool) :=
  let make (a1 : att) :=
    let len := a_len a1 in
    let length := if size <? len then size else len in
    let left := len - length in
    if negb (left =? 0)
    then (mkAtt (a_realm_len a1) (a_copied a1 + length) left (a_buf a1), Some (length, false))
    else (mkAtt 0 (a_copied a1) len (a_buf a1), Some (length, true)) in
  if a_copied a =? 0 then
    match ae_cca env with
    | None => (a, None)
    | Some (len, bytes) => make (mkAtt (a_realm_len a) (a_copied a) len bytes)
    end
  else make a.

(** realm_attest.c:37-135; reading past the end of the token buffer is a panic *)
Definition attest_token_continue_write_state (c : cfg) (env : att_env) (v : vcpu) : prog (vcpu * rsi) :=
  let r := v_rec v in
  let ipa := r_regs r 1 in
  let offset := r_regs r 2 in
  let size := r_regs r 3 in
  o <- realm_ipa_to_pa c r ipa ;;
  match o with
  | WInvalid => Panic
  | WFail EMPTY _ => Ret (v, ret_realm (rx0 r RSI_ERROR_INPUT))
  | WFail _ level => Ret (v, s2_fault (rx0 r 0) level)
  | WOk llt pa _ =>
    if size =? 0 then granule_unlock llt ;;; Ret (v, ret_realm (rx0 r RSI_INCOMPLETE))
    else
      assert_ (find_granule c pa) ;;;
      map_slot SLOT_RSI_CALL ;;;
      let w := write_state env (v_att v) size in
      x <- (match snd w with
            | None => Ret (rx0 r RSI_ERROR_INPUT)
            | Some (length, done) =>
              assert_ (a_copied (v_att v) + length <=? REC_ATTEST_TOKEN_BUF_SIZE) ;;;
              f <- get_table pa ;;
              wr_mem pa (CW (put_bytes f offset length (fun k => a_buf (fst w) (a_copied (v_att v) + k)))) ;;;
              Ret (rx r (if done then RSI_SUCCESS else RSI_INCOMPLETE) length 0 0)
            end) ;;
      unmap_slot SLOT_RSI_CALL ;;;
      granule_unlock llt ;;;
      Ret (v_set_att v (fst w), ret_realm x)
  end.

(** realm_attest.c:277-377; the comparison of the offset and the sum is on 64 bits *)
Definition handle_rsi_attest_token_continue (c : cfg) (env : att_env) (v : vcpu) : prog (vcpu * rsi) :=
  let r := v_rec v in
  let a := v_att v in
  let ipa := r_regs r 1 in
  let offset := r_regs r 2 in
  let size := r_regs r 3 in
  if negb (is_aligned_granule ipa) || (4096 <=? offset) || (4096 <? wrap64 (offset + size)) ||
     (wrap64 (offset + size) <? offset)
  then Ret (v, ret_realm (rx0 r RSI_ERROR_INPUT))
  else if negb (addr_in_rec_par r ipa) then Ret (v, ret_realm (rx0 r RSI_ERROR_INPUT))
  else if negb (a_realm_len a =? 0) then attest_token_continue_write_state c env v
  else
    match ae_sign env with
    | SgState => Ret (v, ret_realm (rx0 r RSI_ERROR_STATE))
    | SgFail => Ret (v, ret_realm (rx0 r RSI_ERROR_UNKNOWN))
    | SgIrq len =>
      Ret (mkV r (ex_set_reason (v_exit v) RMI_EXIT_IRQ) (mkAtt len (a_copied a) (a_len a) (a_buf a)),
           ret_host (rx0 r RSI_INCOMPLETE))
    | SgDone len =>
      attest_token_continue_write_state c env (v_set_att v (mkAtt len (a_copied a) (a_len a) (a_buf a)))
    end.

(* ------------------------------------------------------------------ *)
(** * PSCI *)

(** psci.c:20-34 *)
Definition forward_args (count : N) (r : recd) : N -> N := fun i => if i <? count then r_regs r i else 0.

(** psci.c:111-121 *)
Definition rd_map_read_rec_count (rd : N) : prog N :=
  map_slot SLOT_RD ;;; d <- get_rd rd ;; unmap_slot SLOT_RD ;;; Ret (rd_rec_count d).

(** psci.c:162-166 and 211-217: the request is left to the host *)
Definition psci_request (v : vcpu) : vcpu * rsi :=
  let r := v_rec v in
  (mkV (set_psci_pending r true) (ex_set_gprs (v_exit v) (forward_args 2 r)) (v_att v), exit_host (rx0 r 0)).

(** psci.c:123-167 *)
Definition psci_cpu_on (v : vcpu) : prog (vcpu * rsi) :=
  let r := v_rec v in
  if negb (addr_in_rec_par r (r_regs r 2)) then Ret (v, ret_realm (rx0 r PSCI_RETURN_INVALID_ADDRESS))
  else
    n <- rd_map_read_rec_count (r_g_rd r) ;;
    if n <=? mpidr_to_rec_idx (r_regs r 1) then Ret (v, ret_realm (rx0 r PSCI_RETURN_INVALID_PARAMS))
    else if mpidr_to_rec_idx (r_regs r 1) =? r_idx r then Ret (v, ret_realm (rx0 r PSCI_RETURN_ALREADY_ON))
    else Ret (psci_request v).

(** psci.c:169-219 *)
Definition psci_affinity_info (v : vcpu) : prog (vcpu * rsi) :=
  let r := v_rec v in
  if negb (r_regs r 2 =? 0) then Ret (v, ret_realm (rx0 r PSCI_RETURN_INVALID_PARAMS))
  else
    n <- rd_map_read_rec_count (r_g_rd r) ;;
    if n <=? mpidr_to_rec_idx (r_regs r 1) then Ret (v, ret_realm (rx0 r PSCI_RETURN_INVALID_PARAMS))
    else if mpidr_to_rec_idx (r_regs r 1) =? r_idx r then Ret (v, ret_realm (rx0 r PSCI_AFFINITY_INFO_ON))
    else Ret (psci_request v).

(** psci.c:44-63 *)
Definition psci_cpu_suspend (v : vcpu) : prog (vcpu * rsi) :=
  let r := v_rec v in
  Ret (v_set_exit v (ex_set_gprs (v_exit v) (forward_args 1 r)), ret_host (rx0 r PSCI_RETURN_SUCCESS)).

(** psci.c:65-92 *)
Definition psci_cpu_off (v : vcpu) : prog (vcpu * rsi) :=
  let r := v_rec v in
  Ret (mkV (set_runnable r false) (ex_set_gprs (v_exit v) (forward_args 1 r)) (v_att v),
       ret_host (rx0 r PSCI_RETURN_SUCCESS)).

(** psci.c:221-253 *)
Definition psci_system_off_reset (v : vcpu) : prog (vcpu * rsi) :=
  let r := v_rec v in
  let rd := r_g_rd r in
  granule_lock rd RD ;;;
  map_slot SLOT_RD ;;;
  d <- get_rd rd ;;
  put_rd rd (set_rd_state d REALM_SYSTEM_OFF) ;;;
  unmap_slot SLOT_RD ;;;
  granule_unlock rd ;;;
  Ret (v_set_exit v (ex_set_gprs (v_exit v) (forward_args 1 r)), exit_host (rx0 r 0)).

(** psci.c:255-278 *)
Definition psci_feature_fids : list N :=
  [SMC32_PSCI_CPU_SUSPEND; SMC64_PSCI_CPU_SUSPEND; SMC32_PSCI_CPU_OFF; SMC32_PSCI_CPU_ON; SMC64_PSCI_CPU_ON;
   SMC32_PSCI_AFFINITY_INFO; SMC64_PSCI_AFFINITY_INFO; SMC32_PSCI_SYSTEM_OFF; SMC32_PSCI_SYSTEM_RESET;
   SMC32_PSCI_FEATURES; 2147483648 (* SMCCC_VERSION *)].
Definition psci_features (v : vcpu) : prog (vcpu * rsi) :=
  let r := v_rec v in
  Ret (v, ret_realm (rx0 r (if existsb (N.eqb (u32 (r_regs r 1))) psci_feature_fids
                            then PSCI_RETURN_SUCCESS else PSCI_RETURN_NOT_SUPPORTED))).

(** psci.c:286-316 *)
Definition psci_dispatch (v : vcpu) : prog (vcpu * rsi) :=
  let r := v_rec v in
  let fid := u32 (r_regs r 0) in
  let is l := existsb (N.eqb fid) l in
  if is [SMC32_PSCI_VERSION] then Ret (v, ret_realm (rx0 r 65537))
  else if is [SMC32_PSCI_CPU_SUSPEND; SMC64_PSCI_CPU_SUSPEND] then psci_cpu_suspend v
  else if is [SMC32_PSCI_CPU_OFF] then psci_cpu_off v
  else if is [SMC32_PSCI_CPU_ON; SMC64_PSCI_CPU_ON] then psci_cpu_on v
  else if is [SMC32_PSCI_AFFINITY_INFO; SMC64_PSCI_AFFINITY_INFO] then psci_affinity_info v
  else if is [SMC32_PSCI_SYSTEM_OFF; SMC32_PSCI_SYSTEM_RESET] then psci_system_off_reset v
  else if is [SMC32_PSCI_FEATURES] then psci_features v
  else Ret (v, ret_realm (rx0 r PSCI_RETURN_NOT_SUPPORTED)).

(** psci.c:280-321 *)
Definition handle_psci (v : vcpu) : prog (vcpu * rsi) :=
  o <- psci_dispatch v ;;
  Ret (if ra_exit (snd o) then (v_set_exit (fst o) (ex_set_reason (v_exit (fst o)) RMI_EXIT_PSCI), snd o) else o).

(* ------------------------------------------------------------------ *)
(** * Dispatch *)

(** smc-rsi.h: function identifiers *)
Definition SMC_RSI_FID (n : N) : N := 3288334736 + n.           (* 0xC4000190 *)
Definition SMCCC_VERSION : N := 2147483648.                    (* 0x80000000 *)
(** smc.h:24, exit.c:402: the SVE hint *)
Definition SMC_SVE_HINT : N := 2 ^ 16.

Definition in_range (lo n hi : N) : bool := (lo <=? n) && (n <=? hi).

(** exit.c:410-452; saving the SIMD state around attestation calls
    (exit.c:404-408, 454-456) keeps it and is left out *)
Definition rsi_dispatch (c : cfg) (env : att_env) (v : vcpu) : prog (vcpu * rsi) :=
  let r := v_rec v in
  let fid := N.ldiff (u32 (r_regs r 0)) SMC_SVE_HINT in
  if fid =? SMCCC_VERSION then Ret (v, ret_realm (rx0 r SMCCC_VERSION_NUMBER))
  else if in_range (SMC32_PSCI_FID 0) fid (SMC32_PSCI_FID 20) then handle_psci v
  else if in_range (SMC64_PSCI_FID 0) fid (SMC64_PSCI_FID 20) then handle_psci v
  else if fid =? SMC_RSI_FID 0 then handle_rsi_version v
  else if fid =? SMC_RSI_FID 1 then handle_rsi_features v
  else if fid =? SMC_RSI_FID 2 then handle_rsi_measurement_read v
  else if fid =? SMC_RSI_FID 3 then handle_rsi_measurement_extend c v
  else if fid =? SMC_RSI_FID 4 then handle_rsi_attest_token_init env v
  else if fid =? SMC_RSI_FID 5 then handle_rsi_attest_token_continue c env v
  else if fid =? SMC_RSI_FID 6 then handle_rsi_realm_config c v
  else if fid =? SMC_RSI_FID 7 then handle_rsi_ipa_state_set v
  else if fid =? SMC_RSI_FID 8 then handle_rsi_ipa_state_get c v
  else if fid =? SMC_RSI_FID 9 then handle_rsi_host_call c v
  else Ret (v, ret_realm (rx0 r SMC_UNKNOWN)).

(** exit.c:174-191; the level is converted to unsigned long before the assertion *)
Definition emulate_stage2_data_abort (r : recd) (x : rec_exit) (level : Z) : prog rec_exit :=
  assert_ ((0 <=? level)%Z && (level <=? 3)%Z) ;;;
  let fipa := r_regs r 1 in
  Ret (ex_set_reason (ex_set_hpfar (ex_set_far (ex_set_esr x
         (N.lor EC_DATA_ABORT (FSC_TRANSLATION_FAULT_L0 + Z.to_N level))) 0) (N.shiftr fipa 8)) RMI_EXIT_SYNC).

(** exit.c:458-474: the five result registers; true when the realm goes on *)
Definition set_results (r : recd) (x : res) : recd :=
  set_reg (set_reg (set_reg (set_reg (set_reg r 0 (x0 x)) 1 (x1 x)) 2 (x2 x)) 3 (x3 x)) 4 (x4 x).
Definition advance_pc (r : recd) : recd := set_pc r (wrap64 (r_pc r + 4)).

(** exit.c:384-474 *)
Definition handle_realm_rsi (c : cfg) (env : att_env) (v : vcpu) : prog (vcpu * bool) :=
  o <- rsi_dispatch c env v ;;
  let v1 := fst o in
  let a := snd o in
  let r1 := if ra_update a then set_results (v_rec v1) (ra_x a) else v_rec v1 in
  if ra_abort a then
    x <- emulate_stage2_data_abort r1 (v_exit v1) (ra_level a) ;;
    Ret (mkV r1 x (v_att v1), negb (ra_exit a))
  else Ret (mkV (advance_pc r1) (v_exit v1) (v_att v1), negb (ra_exit a)).
