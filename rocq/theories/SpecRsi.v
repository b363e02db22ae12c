(** Vocabulary of the theorems about the services a realm calls (RSI).  Nothing
    here models code. *)
From Coq Require Import NArith ZArith List Bool.
From Verif Require Import Bits S2tte State Granule RecFields RmiRec Psci Gic Esr Rsi RecRun Arch Mmu Machine Spec SpecStep SpecExit SpecRec.
Import ListNotations.
Local Open Scope N_scope.

Definition RSI_READ : N := 2.
Definition RSI_INIT : N := 4.
Definition RSI_GET : N := 8.

(** The call returns: the results are in x0 to x3, every other register is as
    before and the realm goes on after the instruction *)
Definition returned (r r' : recd) (v0 v1 v2 v3 : N) : Prop :=
  r_regs r' 0 = v0 /\ r_regs r' 1 = v1 /\ r_regs r' 2 = v2 /\ r_regs r' 3 = v3 /\
  (forall i, 4 <= i -> r_regs r' i = r_regs r i) /\ r_pc r' = (r_pc r + 4) mod 2 ^ 64.
(** All memory but these granules is as before *)
Definition only (m m' : mstate) (l : list N) : Prop := forall z, ~ In z l -> m_gr m' z = m_gr m z.
(** RSI_ERROR_INPUT, and no other effect than on the registers of the REC [a] *)
Definition rejected (m m' : mstate) (a : N) (r r' : recd) : Prop := returned r r' 1 0 0 0 /\ only m m' [a].

(** ** C43: measurements *)

(** Byte [n] of consecutive 64-bit words *)
Definition byte_of (f : N -> N) (n : N) : N := f (n / 8) / 2 ^ (8 * (n mod 8)) mod 256.
Definition bytes_of (f : N -> N) (off len : N) : list N := map (fun k => byte_of f (off + N.of_nat k)) (seq 0 (N.to_nat len)).
(** The value to extend with: the first [x2] bytes of x3 to x10 *)
Definition value (r : recd) : list N := bytes_of (fun i => r_regs r (3 + i)) 0 (r_regs r 2).
(** The members of a realm descriptor besides the measurements *)
Definition besides (d d' : rdesc) : Prop :=
  rd_state d' = rd_state d /\ rd_rec_count d' = rd_rec_count d /\ rd_ctx d' = rd_ctx d /\ rd_num_rec_aux d' = rd_num_rec_aux d /\
  rd_algorithm d' = rd_algorithm d /\ rd_pmu_enabled d' = rd_pmu_enabled d /\ rd_pmu_num_ctrs d' = rd_pmu_num_ctrs d /\ rd_simd d' = rd_simd d /\
  rd_rpv d' = rd_rpv d.
(** Word [i] of a measurement: SHA-256 (algorithm 0) has 4, SHA-512 has 8 *)
Definition digest (d : rdesc) (slot i : N) : N :=
  if i <? (if rd_algorithm d =? 0 then 4 else 8) then rd_meas d slot / 2 ^ (64 * i) mod 2 ^ 64 else 0.

(** ** C44 to C46: addresses *)

(** A page, a range of pages and a host call structure in the protected half *)
Definition page_address (x : s2ctx) (ipa : N) : Prop := ipa mod 4096 = 0 /\ protected x ipa.
Definition page_range (x : s2ctx) (base top : N) : Prop :=
  base mod 4096 = 0 /\ top mod 4096 = 0 /\ base < top /\ top <= 2 ^ (ipa_bits x - 1).
Definition host_address (x : s2ctx) (ipa : N) : Prop := ipa mod 256 = 0 /\ protected x ipa.
(** A buffer of [size] bytes at [off] of a page *)
Definition buffer (x : s2ctx) (ipa off size : N) : Prop := page_address x ipa /\ off < 4096 /\ off + size <= 4096.

(** The call stops with a stage 2 fault at the address in x1: the registers are
    as before, so that the realm calls again, and the host is told of a translation
    fault (status 4 plus the level) at the level where the walk of the tables ends
    and of the address of the page *)
Definition faulted (m m' : mstate) (rp : reply) (a : N) (d : rdesc) (r r' : recd) : Prop :=
  (forall i, r_regs r' i = r_regs r i) /\ r_pc r' = r_pc r /\ only m m' [a] /\
  exists level w, last_desc 4 (tt_read (m_gr m)) (enable_lpa2 (rd_ctx d)) (s2_sl (rd_ctx d)) (first_desc (rd_ctx d) (r_regs r 1)) (r_regs r 1) = Some (level, w) /\
    (0 <= level <= 3)%Z /\
    (rp = Exited RMI_ERROR_INPUT None \/
     exists x, rp = Exited RMI_SUCCESS (Some x) /\
       report x 0 (36 * 2 ^ 26 + (4 + Z.to_N level)) 0 (ex_hpfar x) no_gprs 0 0 0 0 /\ fault_ipa (ex_hpfar x) = r_regs r 1 / 4096 * 4096).
(** What becomes of a call that needs the memory of a page: [ok g] if the page has the granule
    [g] and RIPAS RAM; it is rejected if the RIPAS is EMPTY *)
Definition with_memory (m m' : mstate) (rp : reply) (a : N) (d : rdesc) (r r' : recd) (ok : N -> Prop) : Prop :=
  match page_at (m_gr m) (rd_ctx d) (r_regs r 1) with
  | PAssigned RAM g => ok g
  | PAssigned EMPTY _ | PUnassigned EMPTY => rejected m m' a r r'
  | _ => faulted m m' rp a d r r'
  end.
(** The configuration of a realm in the first words of a page: the size of its
    address space, the algorithm in one byte and the personalization value *)
Definition config (d : rdesc) (f : N -> N) (w : N) : N :=
  if w =? 0 then ipa_bits (rd_ctx d)
  else if w =? 1 then f 1 / 256 * 256 + (if rd_algorithm d =? 0 then 0 else 1)
  else if (64 <=? w) && (w <? 72) then rd_rpv d / 2 ^ (64 * (w - 64)) mod 2 ^ 64
  else f w.

(** ** C42: tokens *)

(** What a realm has received since it started: nothing, a part of a token or all
    of it *)
Inductive phase := Idle | Part (tok got : list N) | Full (tok got : list N).
(** The token that the attestation library makes in this step *)
Definition token (ev : event) : list N :=
  match ae_cca (ev_att ev) with Some (len, bytes) => map (fun k => bytes (N.of_nat k) mod 256) (seq 0 (N.to_nat len)) | None => [] end.
(** A call with the registers [r] returned with [r'] and left the words [f] in
    the page: success (0) or more to come (3), and the number of bytes *)
Definition chunk (ev : event) (r r' : recd) (f : N -> N) (ph : phase) : phase :=
  let new := bytes_of f (r_regs r 2) (r_regs r' 1) in
  match ph, r_regs r' 0, r_regs r' 1 with
  | Idle, 0, _ => Full (token ev) new
  | Idle, 3, Npos _ => Part (token ev) new
  | Part tok got, 0, _ => Full tok (got ++ new)
  | Part tok got, 3, _ => Part tok (got ++ new)
  | ph, _, _ => ph
  end.
(** Histories of a REC [a] since it was created or last started a token *)
Inductive delivery (c : cfg) (h : hw) (a : N) : mstate -> phase -> Prop :=
| dy_create : forall m o m' rp p rd pa x, next c h m o m' rp -> done o rp (KRecCreate p rd a pa) x -> delivery c h a m' Idle
| dy_start : forall m o m' rp r, next c h m o m' rp -> rsi_call m o a r RSI_INIT -> delivery c h a m' Idle
(* the page is the one at x1; what is there does not matter if nothing is delivered.  The
   library refuses to sign after it made a token, until the next start. *)
| dy_chunk : forall m ph p ev fi tm m' rp r r' d f, delivery c h a m ph -> next c h m (OExit p ev fi tm) m' rp ->
    rsi_call m (OExit p ev fi tm) a r RSI_CONTINUE -> rec_is m' a r' -> realm m' (r_g_rd r) d ->
    (forall f', page_words (m_gr m') (page_at (m_gr m') (rd_ctx d) (r_regs r 1)) = Some f' -> f' = f) ->
    (forall tok got, ph = Full tok got -> ae_sign (ev_att ev) = SgState) ->
    delivery c h a m' (chunk ev r r' f ph)
| dy_other : forall m ph o m' rp, delivery c h a m ph -> next c h m o m' rp ->
    (forall r, ~ rsi_call m o a r RSI_INIT) -> (forall r, ~ rsi_call m o a r RSI_CONTINUE) ->
    (forall p rd pa x, ~ done o rp (KRecCreate p rd a pa) x) -> delivery c h a m' ph.

(** The REC left its realm and the exit record, if the host receives it, satisfies [P] *)
Definition told_host (rp : reply) (P : rec_exit -> Prop) : Prop :=
  rp = Exited RMI_ERROR_INPUT None \/ exists x, rp = Exited RMI_SUCCESS (Some x) /\ P x.
