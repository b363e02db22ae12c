(** C42 to C46: the services a realm calls.  The vocabulary is in Spec.v, SpecStep.v,
    SpecRec.v and SpecRsi.v: [rsi_call m o a r n] says that the REC [a], whose registers are
    those of [r], makes the call number [n] in the step [o]. *)
From Coq Require Import NArith ZArith List Bool.
From Verif Require Import Bits S2tte State Granule RecFields Measure RmiRtt RmiRealm Psci RmiRec Gic Esr Rsi RecRun Arch Mmu Machine
  Spec SpecStep SpecExit SpecRec SpecRsi Demo Demo2 Demo3 Own Step Step12 Step13.
Import ListNotations.
Local Open Scope N_scope.

(** Calls at the end of the history of Demo.v: [d_call env fid x1 x2 x3] *)
Definition d_regs (fid a1 a2 a3 : N) : op := ORegs 0 (fun i => match i with 0 => fid | 1 => a1 | 2 => a2 | 3 => a3 | _ => i end) 0 256 5 (fun _ => 0).
Definition d_svc (env : att_env) : op := OExit 0 (mkEv ExcSync (23 * 2 ^ 26) 0 0 env) dfin no_tm.
Definition call_example (l : list op) (n a1 a2 a3 : N) (P : mstate -> reply -> rdesc -> recd -> recd -> bool) : Prop :=
  exists m m' rp d r r', next dcfg dhw m (d_svc no_env) m' rp /\ rec_is m' (gr 14) r' /\ rsi_call m (d_svc no_env) (gr 14) r n /\
    realm m (r_g_rd r) d /\ r_regs r 1 = a1 /\ r_regs r 2 = a2 /\ r_regs r 3 = a3 /\ P m' rp d r r' = true.
Definition calls (n : N) (m m' : mstate) : bool :=
  is_rec_b m' (gr 14) && is_rec_b m (gr 14) && is_rd_b m (gr 0) && match m_cpu m 0 with Some ru => ru_rec ru =? gr 14 | None => false end &&
  (N.clearbit (r_regs (rec_of m (gr 14)) 0 mod 2 ^ 32) 16 =? 0xC4000190 + n) && (r_g_rd (rec_of m (gr 14)) =? gr 0).
Lemma call_made : forall n m m' env, calls n m m' = true -> rec_is m' (gr 14) (rec_of m' (gr 14)) /\ rsi_call m (d_svc env) (gr 14) (rec_of m (gr 14)) n /\
  r_g_rd (rec_of m (gr 14)) = gr 0 /\ realm m (gr 0) (rd_of m (gr 0)).
Proof.
  intros n m m' env E. unfold calls in E. facts E. split; [apply rec_b; assumption|]. split; [|split; [assumption|apply realm_b; assumption]]. split; [|assumption].
  eexists _, _, _, _. split; [reflexivity|]. split; [apply executes_b; assumption|]. split; [apply rec_b; assumption|]. split; reflexivity.
Qed.
Lemma call_shown : forall l n a1 a2 a3 (P : mstate -> reply -> rdesc -> recd -> recd -> bool),
  staged (l ++ [d_regs (0xC4000190 + n) a1 a2 a3]) (d_svc no_env) (fun m m' rp => let r := rec_of m (gr 14) in
    calls n m m' && (r_regs r 1 =? a1) && (r_regs r 2 =? a2) && (r_regs r 3 =? a3) && P m' rp (rd_of m (gr 0)) r (rec_of m' (gr 14))) = true -> call_example l n a1 a2 a3 P.
Proof.
  intros l n a1 a2 a3 P E. apply stage in E. destruct E as (m' & rp & NX & E). revert NX E. generalize (after (l ++ [d_regs (0xC4000190 + n) a1 a2 a3])) as m.
  intros m NX E. cbv zeta in E. facts E. destruct (call_made n m m' no_env ltac:(assumption)) as (R' & CA & G & RL).
  exists m, m', rp, (rd_of m (gr 0)), (rec_of m (gr 14)), (rec_of m' (gr 14)). rewrite G. auto 10.
Qed.
Ltac show := apply call_shown; vm_compute; reflexivity.

Fixpoint equal (l l' : list N) : bool := match l, l' with [], [] => true | a :: l, b :: l' => (a =? b) && equal l l' | _, _ => false end.
Lemma equal_eq : forall l l', equal l l' = true -> l = l'.
Proof. induction l as [|a l IH]; intros [|b l'] E; try discriminate E; [reflexivity|]. apply andb_prop in E. destruct E as [E1 E2]. apply N.eqb_eq in E1. rewrite E1, (IH l' E2). reflexivity. Qed.

(* ------------------------------------------------------------------ *)
(** * C43 *)

(** MEASUREMENT_EXTEND: slots 1 to 4 and at most 64 bytes *)
Theorem C43_extend : forall c h m o m' rp a r r' d, next c h m o m' rp -> realm m (r_g_rd r) d -> rec_is m' a r' -> rsi_call m o a r RSI_EXTEND ->
  (1 <= r_regs r 1 <= 4 /\ r_regs r 2 <= 64 -> returned r r' 0 0 0 0 /\ only m m' [a; r_g_rd r] /\
     exists d', realm m' (r_g_rd r) d' /\ besides d d' /\
       rd_meas d' (r_regs r 1) = c_hash c (rd_algorithm d) (rd_meas d (r_regs r 1) :: value r) /\
       forall i, i <> r_regs r 1 -> rd_meas d' i = rd_meas d i) /\
  (~ (1 <= r_regs r 1 <= 4 /\ r_regs r 2 <= 64) -> rejected m m' a r r').
Proof. exact extend_step. Qed.

(** MEASUREMENT_READ: slots 0 to 4; x1 to x8 receive the current value *)
Theorem C43_read : forall c h m o m' rp a r r' d, next c h m o m' rp -> realm m (r_g_rd r) d -> rec_is m' a r' -> rsi_call m o a r RSI_READ ->
  (r_regs r 1 <= 4 -> r_regs r' 0 = 0 /\ (forall i, i < 8 -> r_regs r' (1 + i) = digest d (r_regs r 1) i) /\ (forall i, 9 <= i -> r_regs r' i = r_regs r i) /\
     r_pc r' = (r_pc r + 4) mod 2 ^ 64 /\ only m m' [a]) /\
  (4 < r_regs r 1 -> rejected m m' a r r').
Proof. exact read_step. Qed.

(** The hypotheses are met: 10 bytes extend slot 2; slot 0 cannot be extended but read. *)
Example C43_example :
  call_example d_base RSI_EXTEND 2 10 0x0706050403020100 (fun m' _ d r r' => (r_regs r' 0 =? 0) && equal (value r) [0; 1; 2; 3; 4; 5; 6; 7; 4; 0] &&
    (rd_meas (rd_of m' (gr 0)) 2 =? c_hash dcfg 0 [rd_meas d 2; 0; 1; 2; 3; 4; 5; 6; 7; 4; 0]) && negb (rd_meas (rd_of m' (gr 0)) 2 =? rd_meas d 2)) /\
  call_example d_base RSI_EXTEND 0 10 0 (fun _ _ _ r r' => r_regs r' 0 =? 1) /\
  call_example d_base RSI_READ 0 10 0 (fun _ _ d r r' => (r_regs r' 0 =? 0) && (r_regs r' 1 =? digest d 0 0)).
Proof. split; [|split]; show. Qed.

(* ------------------------------------------------------------------ *)
(** * C44 *)

(** IPA_STATE_GET: x1 receives the top and x2 the RIPAS of every page below it *)
Theorem C44_get : forall c h m o m' rp a r r' d, next c h m o m' rp -> realm m (r_g_rd r) d -> rec_is m' a r' -> rsi_call m o a r RSI_GET ->
  (page_range (rd_ctx d) (r_regs r 1) (r_regs r 2) -> only m m' [a] /\
     exists top w, r_regs r 1 < top /\ top <= r_regs r 2 /\ top mod 4096 = 0 /\
       returned r r' 0 top (match w with EMPTY => 0 | RAM => 1 | DESTROYED => 2 end) 0 /\
       forall ipa, r_regs r 1 <= ipa < top -> page_ripas (page_at (m_gr m) (rd_ctx d) ipa) = Some w) /\
  (~ page_range (rd_ctx d) (r_regs r 1) (r_regs r 2) -> rejected m m' a r r').
Proof. exact get_step. Qed.

(** The hypotheses are met: the memory of realm 1 is RAM up to 16384. *)
Example C44_example :
  call_example d_base RSI_GET 4096 (2 ^ 22) 0 (fun _ _ d r r' => (2 ^ 22 <=? 2 ^ (ipa_bits (rd_ctx d) - 1)) && (r_regs r' 0 =? 0) && (r_regs r' 1 =? 16384) && (r_regs r' 2 =? 1)) /\
  call_example d_base RSI_GET 4096 4096 0 (fun _ _ _ r r' => r_regs r' 0 =? 1).
Proof. split; show. Qed.

(* ------------------------------------------------------------------ *)
(** * C45 *)

(** IPA_STATE_SET: the RIPAS is in the low 32 bits of x3.  It is an address range of the protected half, and the host
    is asked to change it. *)
Theorem C45_set_partial : forall c h m o m' rp a r r' d, next c h m o m' rp -> realm m (r_g_rd r) d -> rec_is m' a r' -> rsi_call m o a r RSI_SET ->
  (page_range (rd_ctx d) (r_regs r 1) (r_regs r 2) /\ r_regs r 3 mod 2 ^ 32 <= 1 ->
     returned r r' 0 (r_regs r 2) 0 0 /\ only m m' [a] /\
     (let q := r_set_ripas r' in sr_base q = r_regs r 1 /\ sr_top q = r_regs r 2 /\ sr_addr q = r_regs r 1 /\ sr_ripas q = r_regs r 3 mod 2 ^ 32) /\
     told_host rp (fun x => report x 4 0 0 0 no_gprs (r_regs r 1) (r_regs r 2) (r_regs r 3 mod 2 ^ 32) 0)) /\
  (~ (page_range (rd_ctx d) (r_regs r 1) (r_regs r 2) /\ r_regs r 3 mod 2 ^ 32 <= 1) -> rejected m m' a r r').
Proof. exact set_step. Qed.

(** The claim is that x3 is 0 or 1; it is false, other values of the upper half of x3 are accepted. *)
Theorem C45_set_refuted : exists c h m o m' rp a r r', next c h m o m' rp /\ rec_is m' a r' /\ rsi_call m o a r RSI_SET /\
  1 < r_regs r 3 < 2 ^ 64 /\ r_regs r' 0 = 0 /\ sr_ripas (r_set_ripas r') = 1.
Proof.
  assert (E : call_example d_base RSI_SET 0 4096 (2 ^ 32 + 1) (fun _ _ _ _ r' => (r_regs r' 0 =? 0) && (sr_ripas (r_set_ripas r') =? 1))) by show.
  destruct E as (m & m' & rp & d & r & r' & NX & R' & CA & RL & _ & _ & E3 & E). facts E. exists dcfg, dhw, m, (d_svc no_env), m', rp, (gr 14), r, r'.
  rewrite E3. repeat (split; try assumption; try reflexivity).
Qed.

(** REALM_CONFIG: an aligned address of the protected half; [with_memory] says what becomes of an
    address without memory. *)
Theorem C45_config : forall c h m o m' rp a r r' d, next c h m o m' rp -> realm m (r_g_rd r) d -> rec_is m' a r' -> rsi_call m o a r RSI_CONFIG ->
  (page_address (rd_ctx d) (r_regs r 1) -> with_memory m m' rp a d r r' (fun g => returned r r' 0 0 0 0 /\ only m m' [a; g] /\
     exists f f', g_mem (m_gr m g) = CW f /\ g_mem (m_gr m' g) = CW f' /\ g_state (m_gr m' g) = DATA /\ forall w, f' w = config d f w)) /\
  (~ page_address (rd_ctx d) (r_regs r 1) -> rejected m m' a r r').
Proof. exact config_step. Qed.

(** HOST_CALL: a structure of 256 bytes in the protected half; the host receives the immediate and
    the registers that the structure holds. *)
Theorem C45_host : forall c h m o m' rp a r r' d, next c h m o m' rp -> realm m (r_g_rd r) d -> rec_is m' a r' -> rsi_call m o a r RSI_HOST ->
  (host_address (rd_ctx d) (r_regs r 1) -> with_memory m m' rp a d r r' (fun g => (forall i, r_regs r' i = r_regs r i) /\ r_pc r' = (r_pc r + 4) mod 2 ^ 64 /\
     only m m' [a] /\ r_host_call r' = true /\ exists f, g_mem (m_gr m g) = CW f /\
     told_host rp (fun x => report x 5 0 0 0 (first_gprs 31 (fun i => f (r_regs r 1 mod 4096 / 8 + 1 + i))) 0 0 0 (f (r_regs r 1 mod 4096 / 8) mod 2 ^ 32)))) /\
  (~ host_address (rd_ctx d) (r_regs r 1) -> rejected m m' a r r').
Proof. exact host_step. Qed.

(** ATTESTATION_TOKEN_CONTINUE: a buffer in one page of the protected half.  Besides the outcomes
    of [with_memory], the call tells that the token was not started (2), that it could not be
    signed (4), that there is more to do without any bytes (3), or that the token could not be made
    (1); if it delivers bytes, they are at most x3 from the offset x2, and no other byte
    changes. *)
Theorem C45_continue : forall c h m o m' rp a r r' d, next c h m o m' rp -> realm m (r_g_rd r) d -> rec_is m' a r' -> rsi_call m o a r RSI_CONTINUE ->
  r_regs r 3 < 2 ^ 64 ->
  (buffer (rd_ctx d) (r_regs r 1) (r_regs r 2) (r_regs r 3) ->
     (exists v, In v [1; 2; 3; 4] /\ returned r r' v 0 0 0 /\ only m m' [a]) \/
     with_memory m m' rp a d r r' (fun g => exists n f f', (returned r r' 0 n 0 0 \/ returned r r' 3 n 0 0) /\ n <= r_regs r 3 /\ r_regs r 2 + n <= 4096 /\
       only m m' [a; g] /\ g_mem (m_gr m g) = CW f /\ g_mem (m_gr m' g) = CW f' /\ g_state (m_gr m' g) = DATA /\
       forall k, ~ (r_regs r 2 <= k < r_regs r 2 + n) -> byte_of f' k = byte_of f k)) /\
  (~ buffer (rd_ctx d) (r_regs r 1) (r_regs r 2) (r_regs r 3) -> rejected m m' a r r').
Proof. exact continue_step. Qed.

(** The hypotheses are met *)
Example C45_example :
  call_example d_base RSI_SET 0 8192 0 (fun _ _ _ r r' => (r_regs r' 0 =? 0) && (r_regs r' 1 =? 8192) && (sr_top (r_set_ripas r') =? 8192)) /\
  call_example d_base RSI_CONFIG 0 0 0 (fun m' _ d r r' => page_eqb (page_at (m_gr m') (rd_ctx d) 0) (PAssigned RAM (gr 9)) && (r_regs r' 0 =? 0) &&
    (match g_mem (m_gr m' (gr 9)) with CW f => f 0 | _ => 0 end =? 33)) /\
  call_example d_base RSI_CONFIG 256 0 0 (fun _ _ _ r r' => r_regs r' 0 =? 1) /\
  call_example d_base RSI_HOST 256 0 0 (fun _ _ _ r r' => r_host_call r' && (r_pc r' =? 260)) /\
  call_example d_base RSI_CONTINUE 0 4000 97 (fun _ _ _ r r' => r_regs r' 0 =? 1) /\
  call_example d_base RSI_CONTINUE 0 4000 96 (fun _ _ _ r r' => r_regs r' 0 =? 2).
Proof. do 5 (split; [show|]); show. Qed.

(* ------------------------------------------------------------------ *)
(** * C46 *)

(** A call that finds no memory, at an address that is not empty, exits with [faulted]: the report of a translation
    fault with the level where the walk of the tables ends and the address of the page.  The claim is for every
    start level; a walk that ends at level -1 stops the monitor instead (C26_levels_refuted). *)
Theorem C46_partial : forall c h m o m' rp a r r' d n, next c h m o m' rp -> realm m (r_g_rd r) d -> rec_is m' a r' -> rsi_call m o a r n ->
  n = RSI_CONFIG /\ page_address (rd_ctx d) (r_regs r 1) \/ n = RSI_HOST /\ host_address (rd_ctx d) (r_regs r 1) ->
  (forall g, page_at (m_gr m) (rd_ctx d) (r_regs r 1) <> PAssigned RAM g) -> page_ripas (page_at (m_gr m) (rd_ctx d) (r_regs r 1)) <> Some EMPTY ->
  faulted m m' rp a d r r'.
Proof. exact fault_step. Qed.

(** The same for ATTESTATION_TOKEN_CONTINUE: when the call is not completed, so that the realm repeats it, such a fault is reported. *)
Theorem C46_continue_partial : forall c h m o m' rp a r r' d, next c h m o m' rp -> realm m (r_g_rd r) d -> rec_is m' a r' -> rsi_call m o a r RSI_CONTINUE ->
  r_regs r 3 < 2 ^ 64 -> r_pc r' = r_pc r -> r_pc r < 2 ^ 64 -> faulted m m' rp a d r r'.
Proof. exact continue_fault. Qed.

(** The hypotheses are met at the address 8192, which is RAM without a page. *)
Example C46_example :
  call_example d_base RSI_HOST 8448 0 0 (fun m' rp d r r' => page_eqb (page_at (m_gr m') (rd_ctx d) 8448) (PUnassigned RAM) && (r_pc r' =? r_pc r) &&
    match rp with Exited 0 (Some x) => (ex_esr x =? 36 * 2 ^ 26 + 7) && (fault_ipa (ex_hpfar x) =? 8192) | _ => false end).
Proof. show. Qed.

(* ------------------------------------------------------------------ *)
(** * C42 *)

(** Since the token was started or the REC created, the bytes that the calls delivered are the first
    bytes of the token that the library made; all of them once a call succeeded.  C45_continue has
    the size of each part. *)
Theorem C42_prefix : forall c h a m tok got, delivery c h a m (Part tok got) -> exists rest, rest <> [] /\ tok = got ++ rest.
Proof. exact delivery_part. Qed.
Theorem C42_complete : forall c h a m tok got, delivery c h a m (Full tok got) -> got = tok.
Proof. exact delivery_full. Qed.

(** The hypotheses are met: a token of 10 bytes in parts of 6 and 4 *)
Definition d_env (s : sign_out) : att_env := mkAttEnv true true s (Some (10, fun k => 100 + k)).
Definition d_tok0 : list op := d_base ++ [d_regs 0xC4000194 0 0 0].
Definition d_tok1 : list op := (d_tok0 ++ [d_svc no_env]) ++ [d_regs 0xC4000195 0 7 6].
Definition d_tok2 : list op := (d_tok1 ++ [d_svc (d_env (SgDone 5))]) ++ [d_regs 0xC4000195 4096 0 100].
Definition d_tok3 : list op := d_tok2 ++ [d_svc (d_env SgFail)].
Definition words (m : mstate) (a : N) : N -> N := match g_mem (m_gr m a) with CW f => f | _ => fun _ => 0 end.
Definition phase_eqb (p q : phase) : bool :=
  match p, q with
  | Idle, Idle => true
  | Part a b, Part a' b' | Full a b, Full a' b' => equal a a' && equal b b'
  | _, _ => false
  end.
Lemma phase_eq : forall p q, phase_eqb p q = true -> p = q.
Proof. intros [|a b|a b] [|a' b'|a' b'] E; try discriminate E; [reflexivity|..]; apply andb_prop in E; destruct E as [E1 E2]; rewrite (equal_eq _ _ E1), (equal_eq _ _ E2); reflexivity. Qed.
Lemma d_chunk : forall l env ph g ph', delivery dcfg dhw (gr 14) (after l) ph -> match ph with Full _ _ => False | _ => True end ->
  staged l (d_svc env) (fun m m' rp => let r := rec_of m (gr 14) in calls RSI_CONTINUE m m' && is_rd_b m' (gr 0) &&
    page_eqb (page_at (m_gr m') (rd_ctx (rd_of m' (gr 0))) (r_regs r 1)) (PAssigned RAM g) &&
    phase_eqb (chunk (mkEv ExcSync (23 * 2 ^ 26) 0 0 env) r (rec_of m' (gr 14)) (words m' g) ph) ph') = true ->
  delivery dcfg dhw (gr 14) (after (l ++ [d_svc env])) ph'.
Proof.
  intros l env ph g ph' D NF E. apply stage_after in E. destruct E as (rp & NX & E). revert NX E D. generalize (after (l ++ [d_svc env])) as m'. generalize (after l) as m.
  intros m m' NX E D. cbv zeta in E. facts E. destruct (call_made RSI_CONTINUE m m' env ltac:(assumption)) as (R' & CA & G & RL).
  match goal with E : phase_eqb _ _ = true |- _ => apply phase_eq in E; rewrite <- E end.
  match goal with E : page_eqb _ _ = true |- _ => apply page_eq in E; rename E into PA end.
  apply (dy_chunk _ _ _ m ph 0 _ dfin no_tm _ rp _ _ (rd_of m' (gr 0))).
  - exact D.
  - exact NX.
  - exact CA.
  - exact R'.
  - rewrite G. apply realm_b. assumption.
  - rewrite PA. cbn [page_words]. unfold words. intros f' W. destruct (g_mem _); try discriminate W. congruence.
  - intros tok got ->. contradiction.
Qed.
Lemma d_keep : forall l o ph, staged l o (fun _ _ _ => true) = true -> delivery dcfg dhw (gr 14) (after l) ph -> match o with ORegs _ _ _ _ _ _ => True | _ => False end ->
  delivery dcfg dhw (gr 14) (after (l ++ [o])) ph.
Proof.
  intros l o ph E D X. apply stage_after in E. destruct E as (rp & NX & _). apply (dy_other _ _ _ (after l) ph o _ rp); [exact D|exact NX|..].
  - intros r ((p & ev & fi & tm & -> & _) & _). exact X.
  - intros r ((p & ev & fi & tm & -> & _) & _). exact X.
  - intros p rd pa x (q & -> & _). exact X.
Qed.
Example C42_example :
  delivery dcfg dhw (gr 14) (after (d_tok1 ++ [d_svc (d_env (SgDone 5))])) (Part [100; 101; 102; 103; 104; 105; 106; 107; 108; 109] [100; 101; 102; 103; 104; 105]) /\
  delivery dcfg dhw (gr 14) (after d_tok3) (Full [100; 101; 102; 103; 104; 105; 106; 107; 108; 109] [100; 101; 102; 103; 104; 105; 106; 107; 108; 109]).
Proof.
  assert (D0 : delivery dcfg dhw (gr 14) (after (d_tok0 ++ [d_svc no_env])) Idle).
  { assert (E : staged d_tok0 (d_svc no_env) (fun m m' _ => calls RSI_INIT m m') = true) by (vm_compute; reflexivity). apply stage_after in E. destruct E as (rp & NX & E).
    revert NX E. generalize (after (d_tok0 ++ [d_svc no_env])) as m'. generalize (after d_tok0) as m. intros m m' NX E.
    exact (dy_start _ _ _ m _ m' rp _ NX (proj1 (proj2 (call_made RSI_INIT m m' no_env E)))). }
  assert (D1 : delivery dcfg dhw (gr 14) (after d_tok1) Idle) by (apply d_keep; [vm_compute; reflexivity|exact D0|exact Logic.I]).
  assert (D2 : delivery dcfg dhw (gr 14) (after (d_tok1 ++ [d_svc (d_env (SgDone 5))])) (Part [100; 101; 102; 103; 104; 105; 106; 107; 108; 109] [100; 101; 102; 103; 104; 105])).
  { refine (d_chunk _ _ _ (gr 9) _ D1 Logic.I _). vm_compute. reflexivity. }
  split; [exact D2|].
  assert (D3 : delivery dcfg dhw (gr 14) (after d_tok2) (Part [100; 101; 102; 103; 104; 105; 106; 107; 108; 109] [100; 101; 102; 103; 104; 105])) by (apply d_keep; [vm_compute; reflexivity|exact D2|exact Logic.I]).
  unfold d_tok3. refine (d_chunk _ _ _ (gr 10) _ D3 Logic.I _). vm_compute. reflexivity.
Qed.

Definition rsi_theorems := (@C43_extend, @C43_read, @C44_get, @C45_set_partial, @C45_set_refuted, @C45_config, @C45_host, @C45_continue,
  @C46_partial, @C46_continue_partial, @C42_prefix, @C42_complete).
Print Assumptions rsi_theorems.
