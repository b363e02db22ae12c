(** The SIMD registers and who they belong to: lib/arch/src/simd.c, the parts of
    runtime/core/run.c, runtime/core/exit.c and runtime/core/handler.c that switch
    contexts, and lib/arch/src/aarch64/simd_helpers.S.

    Not modelled: the other registers of a REC, the contents of the ZA and ZT0 storage
    beyond one opaque value (nothing in the RMM touches them), and instruction barriers. *)
From Coq Require Import NArith List Bool.
Import ListNotations.
Local Open Scope N_scope.

(** An assertion fails, or the RMM traps on its own access. *)
Inductive sres (A : Type) := SOk (a : A) | SPanic.
Arguments SOk {A}.
Arguments SPanic {A}.
Definition sbind {A B} (x : sres A) (f : A -> sres B) : sres B := match x with SOk a => f a | SPanic => SPanic end.
Definition must (b : bool) : sres unit := if b then SOk tt else SPanic.
Notation "'let!' x ':=' a 'in' b" := (sbind a (fun x => b)) (at level 200, x pattern, a at level 100, b at level 200).

(** ** The processor *)

(** What a CPU implements: FEAT_SVE, FEAT_SME, the vector length (in quadwords, minus
    one) selected by a value of ZCR_EL2.LEN under the limit of EL3, and the streaming
    vector length selected by SMCR_EL2. *)
Record simd_hw := mkHw { hw_sve : bool; hw_sme : bool; hw_vq : N -> N; hw_svq : N -> N }.

(** The SIMD registers of a CPU: bytes of Z0-Z31, P0-P15 and FFR, control registers
    (zcr1 is ZCR_EL1, named ZCR_EL12 at EL2; zcr2 is ZCR_EL2), the trap register and ZA. *)
Record regs := mkRegs {
  v_z : N -> N -> N; v_p : N -> N -> N; v_ffr : N -> N;
  v_fpsr : N; v_fpcr : N; v_zcr1 : N; v_zcr2 : N; v_svcr : N; v_smcr : N; v_za : N; v_cptr : N }.

(** lib/arch/include/arch.h:835-850: CPTR_EL2.FPEN, ZEN and SMEN; the value 3 does not trap. *)
Definition fpen (cptr : N) : bool := N.testbit cptr 20 && N.testbit cptr 21.
Definition zen (cptr : N) : bool := N.testbit cptr 16 && N.testbit cptr 17.
Definition smen (cptr : N) : bool := N.testbit cptr 24 && N.testbit cptr 25.
(** lib/arch/include/arch.h:852-864 *)
Definition CPTR_SIMD_MASK : N := N.lor (N.shiftl 3 20) (N.lor (N.shiftl 3 16) (N.shiftl 3 24)).
Definition CPTR_INIT : N := N.lor (N.shiftl 1 28) (N.shiftl 1 30).

(** SVCR_SM_BIT, SMCR_EL2_FA64_BIT: lib/arch/include/arch.h:654-658; simd_private.h:54-63. *)
Definition sm (r : regs) : bool := N.testbit (v_svcr r) 0.
Definition fa64 (r : regs) : bool := N.testbit (v_smcr r) 31.

(** The vector length in use, in quadwords minus one. ZCR_EL2_LEN is bits 3:0
    (lib/arch/include/arch.h:638-639). *)
Definition streaming (h : simd_hw) (r : regs) : bool := hw_sme h && sm r.
Definition cur_vq (h : simd_hw) (r : regs) : N := if streaming h r then hw_svq h (v_smcr r) else hw_vq h (N.land (v_zcr2 r) 15).
Definition vl (h : simd_hw) (r : regs) : N := 16 * (cur_vq h r + 1).
Definition pl (h : simd_hw) (r : regs) : N := 2 * (cur_vq h r + 1).

Definition set_z f (r : regs) := mkRegs f (v_p r) (v_ffr r) (v_fpsr r) (v_fpcr r) (v_zcr1 r) (v_zcr2 r) (v_svcr r) (v_smcr r) (v_za r) (v_cptr r).
Definition set_p f (r : regs) := mkRegs (v_z r) f (v_ffr r) (v_fpsr r) (v_fpcr r) (v_zcr1 r) (v_zcr2 r) (v_svcr r) (v_smcr r) (v_za r) (v_cptr r).
Definition set_ffr f (r : regs) := mkRegs (v_z r) (v_p r) f (v_fpsr r) (v_fpcr r) (v_zcr1 r) (v_zcr2 r) (v_svcr r) (v_smcr r) (v_za r) (v_cptr r).
Definition set_fp a b (r : regs) := mkRegs (v_z r) (v_p r) (v_ffr r) a b (v_zcr1 r) (v_zcr2 r) (v_svcr r) (v_smcr r) (v_za r) (v_cptr r).
Definition set_zcr1 a (r : regs) := mkRegs (v_z r) (v_p r) (v_ffr r) (v_fpsr r) (v_fpcr r) a (v_zcr2 r) (v_svcr r) (v_smcr r) (v_za r) (v_cptr r).
Definition set_zcr2 a (r : regs) := mkRegs (v_z r) (v_p r) (v_ffr r) (v_fpsr r) (v_fpcr r) (v_zcr1 r) a (v_svcr r) (v_smcr r) (v_za r) (v_cptr r).
Definition set_cptr a (r : regs) := mkRegs (v_z r) (v_p r) (v_ffr r) (v_fpsr r) (v_fpcr r) (v_zcr1 r) (v_zcr2 r) (v_svcr r) (v_smcr r) (v_za r) a.
(** Writing SVCR: a change of PSTATE.SM clears Z, P and FFR and sets FPSR to 0x800009f
    (Arm ARM; comments of simd.c:128-136 and 156-163). *)
Definition write_svcr (a : N) (r : regs) :=
  if Bool.eqb (N.testbit a 0) (sm r)
  then mkRegs (v_z r) (v_p r) (v_ffr r) (v_fpsr r) (v_fpcr r) (v_zcr1 r) (v_zcr2 r) a (v_smcr r) (v_za r) (v_cptr r)
  else mkRegs (fun _ _ => 0) (fun _ _ => 0) (fun _ => 0) 134217887 (v_fpcr r) (v_zcr1 r) (v_zcr2 r) a (v_smcr r) (v_za r) (v_cptr r).

(** ** Assembly helpers: lib/arch/src/aarch64/simd_helpers.S *)

(** One store of [len] bytes at [base]. *)
Definition st1 (m : N -> N) (base len : N) (f : N -> N) : N -> N := fun j => if (base <=? j) && (j <? base + len) then f (j - base) else m j.
(** One load into a register; the bytes beyond the vector length stay. *)
Definition ld1 (m : N -> N) (base len : N) (f : N -> N) : N -> N := fun j => if j <? len then m (base + j) else f j.
(** [n] registers stored one after another ("#i, MUL VL"). *)
Fixpoint st_bank (n : nat) (m : N -> N) (base len : N) (f : N -> N -> N) : N -> N :=
  match n with
  | O => m
  | S n' => st1 (st_bank n' m base len f) (base + N.of_nat n' * len) len (f (N.of_nat n'))
  end.
Definition put1 (f : N -> N -> N) (i : N) (g : N -> N) : N -> N -> N := fun i' => if i' =? i then g else f i'.
Fixpoint ld_bank (n : nat) (m : N -> N) (base len : N) (f : N -> N -> N) : N -> N -> N :=
  match n with
  | O => f
  | S n' => let f' := ld_bank n' m base len f in put1 f' (N.of_nat n') (ld1 m (base + N.of_nat n' * len) len (f' (N.of_nat n')))
  end.

(** simd.h:33-45: offsets in 'struct sve_regs'. *)
Definition OFFSET_P : N := 16 * (16 * 32).
Definition OFFSET_FFR : N := OFFSET_P + 16 * (2 * 16).

(** simd_helpers.S:30-53 fpu_save_registers *)
Definition fpu_save (r : regs) (m : N -> N) : N -> N := st_bank 32 m 0 16 (v_z r).
(** simd_helpers.S:68-91 fpu_restore_registers. Writing a Q register clears the rest of
    the accessible Z register. *)
Definition fpu_restore (h : simd_hw) (m : N -> N) (r : regs) : regs :=
  set_z (ld_bank 32 m 0 16 (fun i j => if (16 <=? j) && (j <? vl h r) && (i <? 32) then 0 else v_z r i j)) r.
(** simd_helpers.S:124-193 sve_save_vector_registers; saving FFR overwrites P0. *)
Definition sve_save (h : simd_hw) (ffr : bool) (r : regs) (m : N -> N) : (N -> N) * regs :=
  let m1 := st_bank 32 m 0 (vl h r) (v_z r) in
  let m2 := st_bank 16 m1 OFFSET_P (pl h r) (v_p r) in
  if ffr then
    let r1 := set_p (put1 (v_p r) 0 (v_ffr r)) r in
    (st1 m2 OFFSET_FFR (pl h r) (v_p r1 0), r1)
  else (m2, r).
(** simd_helpers.S:211-280 sve_restore_vector_registers; FFR passes through P0. *)
Definition sve_restore (h : simd_hw) (ffr : bool) (m : N -> N) (r : regs) : regs :=
  let r1 := set_z (ld_bank 32 m 0 (vl h r) (v_z r)) r in
  let r2 := if ffr then
              let q := set_p (put1 (v_p r1) 0 (ld1 m OFFSET_FFR (pl h r) (v_p r1 0))) r1 in
              set_ffr (v_p q 0) q
            else r1 in
  set_p (ld_bank 16 m OFFSET_P (pl h r) (v_p r2)) r2.
(** simd_helpers.S:290-313 sve_clear_p_ffr_registers *)
Definition clear_p_ffr (r : regs) : regs :=
  set_ffr (fun _ => 0) (set_p (fun i j => if i <? 16 then 0 else v_p r i j) r).

(** ** Contexts: simd.h:61-172. The flags are booleans instead of bits of a word. *)
Inductive sowner := NWD | REL1.
Record simd_config := mkCfg { sve_en : bool; sve_vq : N; sme_en : bool }.
Record sctx := mkCtx {
  x_owner : sowner; x_sve : bool; x_sme : bool;              (* owner, tflags *)
  x_init : bool; x_saved : bool; x_hint : bool;              (* sflags *)
  x_cptr : N; x_svcr : N; x_zcr2 : N; x_ns_zcr2 : N;         (* cptr_el2, svcr, el2_regs, ns_el2_regs *)
  x_fpsr : N; x_fpcr : N; x_zcr1 : N;                        (* ctl_status_regs *)
  x_mem : N -> N }.                                          (* vregs *)
Definition zero_ctx : sctx := mkCtx NWD false false false false false 0 0 0 0 0 0 0 (fun _ => 0).

Definition set_saved b (c : sctx) := mkCtx (x_owner c) (x_sve c) (x_sme c) (x_init c) b (x_hint c) (x_cptr c) (x_svcr c) (x_zcr2 c) (x_ns_zcr2 c) (x_fpsr c) (x_fpcr c) (x_zcr1 c) (x_mem c).
Definition set_hint b (c : sctx) := mkCtx (x_owner c) (x_sve c) (x_sme c) (x_init c) (x_saved c) b (x_cptr c) (x_svcr c) (x_zcr2 c) (x_ns_zcr2 c) (x_fpsr c) (x_fpcr c) (x_zcr1 c) (x_mem c).
Definition set_xsvcr a (c : sctx) := mkCtx (x_owner c) (x_sve c) (x_sme c) (x_init c) (x_saved c) (x_hint c) (x_cptr c) a (x_zcr2 c) (x_ns_zcr2 c) (x_fpsr c) (x_fpcr c) (x_zcr1 c) (x_mem c).
Definition set_ns_zcr2 a (c : sctx) := mkCtx (x_owner c) (x_sve c) (x_sme c) (x_init c) (x_saved c) (x_hint c) (x_cptr c) (x_svcr c) (x_zcr2 c) a (x_fpsr c) (x_fpcr c) (x_zcr1 c) (x_mem c).
Definition set_ctl a b d (c : sctx) := mkCtx (x_owner c) (x_sve c) (x_sme c) (x_init c) (x_saved c) (x_hint c) (x_cptr c) (x_svcr c) (x_zcr2 c) (x_ns_zcr2 c) a b d (x_mem c).
Definition set_mem f (c : sctx) := mkCtx (x_owner c) (x_sve c) (x_sme c) (x_init c) (x_saved c) (x_hint c) (x_cptr c) (x_svcr c) (x_zcr2 c) (x_ns_zcr2 c) (x_fpsr c) (x_fpcr c) (x_zcr1 c) f.

(** simd.c:34-47 *)
Definition mode_streaming (c : sctx) (r : regs) : bool := x_sme c && sm r.
Definition mode_normal (c : sctx) (r : regs) : bool := x_sve c && negb (x_hint c) && negb (mode_streaming c r).

(** simd.c:69-75 *)
Definition save_ns_el2_config (c : sctx) (r : regs) : sres sctx :=
  if x_sve c then let! _ := must (zen (v_cptr r)) in SOk (set_ns_zcr2 (v_zcr2 r) c) else SOk c.
(** simd.c:77-86 *)
Definition restore_el2_config (c : sctx) (v : N) (r : regs) : sres regs :=
  if x_sve c then let! _ := must (zen (v_cptr r)) in SOk (if v_zcr2 r =? v then r else set_zcr2 v r) else SOk r.

(** Whether the RMM may execute SVE instructions: with ZEN, or with SMEN in streaming mode. *)
Definition sve_ok (h : simd_hw) (r : regs) : bool := fpen (v_cptr r) && (if streaming h r then smen (v_cptr r) else zen (v_cptr r)).

(** simd.c:88-141 *)
Definition save_simd_context (h : simd_hw) (c : sctx) (r : regs) : sres (sctx * regs) :=
  let! r1 := restore_el2_config c (x_zcr2 c) r in
  let! c1 := (if x_sme c then let! _ := must (smen (v_cptr r1)) in SOk (set_xsvcr (v_svcr r1) c) else SOk c) in
  let! (c2, r2) :=
    (if mode_normal c1 r1 || mode_streaming c1 r1 then
       let! _ := must (sve_ok h r1) in
       let (m, r') := sve_save h (if mode_streaming c1 r1 then fa64 r1 else true) r1 (x_mem c1) in
       SOk (set_mem m c1, r')
     else
       let! _ := must (fpen (v_cptr r1)) in SOk (set_mem (fpu_save r1 (x_mem c1)) c1, r1)) in
  let! _ := must (negb (x_sve c2) || zen (v_cptr r2)) in
  let! _ := must (fpen (v_cptr r2)) in
  let c3 := set_ctl (v_fpsr r2) (v_fpcr r2) (if x_sve c2 then v_zcr1 r2 else x_zcr1 c2) c2 in
  SOk (c3, if mode_streaming c3 r2 then write_svcr (N.ldiff (x_svcr c3) 1) r2 else r2).

(** simd.c:143-204 *)
Definition restore_simd_context (h : simd_hw) (c : sctx) (r : regs) : sres regs :=
  let! r1 := restore_el2_config c (x_zcr2 c) r in
  let! r2 := (if x_sme c then let! _ := must (smen (v_cptr r1)) in SOk (write_svcr (x_svcr c) r1) else SOk r1) in
  let! r3 :=
    (if mode_normal c r2 || mode_streaming c r2 then
       let! _ := must (sve_ok h r2) in
       SOk (sve_restore h (if mode_streaming c r2 then fa64 r2 else true) (x_mem c) r2)
     else
       let! _ := must (fpen (v_cptr r2)) in
       let r' := fpu_restore h (x_mem c) r2 in
       if x_sve c then let! _ := must (sve_ok h r') in SOk (clear_p_ffr r') else SOk r') in
  let! _ := must (negb (x_sve c) || zen (v_cptr r3)) in
  let! _ := must (fpen (v_cptr r3)) in
  let r4 := if x_sve c then set_zcr1 (x_zcr1 c) r3 else r3 in
  SOk (set_fp (x_fpsr c) (x_fpcr c) r4).

(** ** State *)

(** &g_ns_simd_ctx[p] and rec->aux_data.simd_ctx *)
Inductive ptr := PNs (p : N) | PRec (r : N).
(** A REC: its context, the configuration of its realm, sysregs.cptr_el2,
    active_simd_ctx (None is NULL) and the CPU it is running on. That a REC runs on one
    CPU at a time is proved of the main model. *)
Record srec := mkSRec { r_ctx : sctx; r_cfg : simd_config; r_cptr : N; r_active : option ptr; r_on : option N }.
(** [q_saved] is g_simd_state_saved; [q_run p] is the REC that CPU [p] executes, with the
    value of the local variable rmm_cptr_el2 of rec_run_loop. *)
Record sstate := mkS { q_cpu : N -> regs; q_saved : N -> bool; q_ns : N -> sctx; q_rec : N -> option srec; q_run : N -> option (N * N) }.

Definition upd {A} (f : N -> A) (i : N) (a : A) : N -> A := fun j => if j =? i then a else f j.
Definition with_cpu p r (s : sstate) := mkS (upd (q_cpu s) p r) (q_saved s) (q_ns s) (q_rec s) (q_run s).
Definition with_saved p b (s : sstate) := mkS (q_cpu s) (upd (q_saved s) p b) (q_ns s) (q_rec s) (q_run s).
Definition with_ns p c (s : sstate) := mkS (q_cpu s) (q_saved s) (upd (q_ns s) p c) (q_rec s) (q_run s).
Definition with_rec i x (s : sstate) := mkS (q_cpu s) (q_saved s) (q_ns s) (upd (q_rec s) i x) (q_run s).
Definition with_run p x (s : sstate) := mkS (q_cpu s) (q_saved s) (q_ns s) (q_rec s) (upd (q_run s) p x).

Definition deref (s : sstate) (a : ptr) : option sctx :=
  match a with PNs p => Some (q_ns s p) | PRec i => option_map r_ctx (q_rec s i) end.
Definition assign (a : ptr) (c : sctx) (s : sstate) : sstate :=
  match a with
  | PNs p => with_ns p c s
  | PRec i => match q_rec s i with
              | Some x => with_rec i (Some (mkSRec c (r_cfg x) (r_cptr x) (r_active x) (r_on x))) s
              | None => s
              end
  end.

(** simd.c:221-248 *)
Definition switch_save (h : simd_hw) (p : N) (a : ptr) (s : sstate) : sres sstate :=
  match deref s a with
  | None => SPanic
  | Some c =>
    let! _ := must (x_init c) in
    let! _ := must (negb (x_saved c)) in
    let! _ := must (negb (q_saved s p)) in
    let r := set_cptr (x_cptr c) (q_cpu s p) in
    let! c1 := (match x_owner c with NWD => save_ns_el2_config c r | REL1 => SOk c end) in
    let! (c2, r2) := save_simd_context h c1 r in
    SOk (with_saved p true (assign a (set_saved true c2) (with_cpu p r2 s)))
  end.
(** simd.c:250-276 *)
Definition switch_restore (h : simd_hw) (p : N) (a : ptr) (s : sstate) : sres sstate :=
  match deref s a with
  | None => SPanic
  | Some c =>
    let! _ := must (x_init c) in
    let! _ := must (x_saved c) in
    let! _ := must (q_saved s p) in
    let r := if v_cptr (q_cpu s p) =? x_cptr c then q_cpu s p else set_cptr (x_cptr c) (q_cpu s p) in
    let! r1 := restore_simd_context h c r in
    let! r2 := (match x_owner c with NWD => restore_el2_config c (x_ns_zcr2 c) r1 | REL1 => SOk r1 end) in
    SOk (with_saved p false (assign a (set_saved false c) (with_cpu p r2 s)))
  end.
(** simd.c:212-283 simd_context_switch on CPU [p]; [None] is NULL. *)
Definition simd_switch (h : simd_hw) (p : N) (sv rs : option ptr) (s : sstate) : sres (sstate * option ptr) :=
  let! _ := must (match sv, rs with None, None => false | _, _ => true end) in
  let rmm := v_cptr (q_cpu s p) in
  let! s1 := (match sv with Some a => switch_save h p a s | None => SOk s end) in
  let! s2 := (match rs with Some a => switch_restore h p a s1 | None => SOk s1 end) in
  SOk (with_cpu p (set_cptr rmm (q_cpu s2 p)) s2, rs).

(** ** Initialisation *)

(** simd.c:411-516: sve_rdvl with ZCR_EL2.LEN at its maximum; SVE_VL_TO_VQ is in
    simd_private.h:14. *)
Definition cpu_config (h : simd_hw) : simd_config :=
  mkCfg (hw_sve h) (if hw_sve h then (16 * (hw_vq h (N.land 15 15) + 1)) * 8 / 128 - 1 else 0) (hw_sme h).
(** simd.h:223-239 SIMD_ENABLE_CPTR_FLAGS *)
Definition cptr_enable (c : simd_config) (v : N) : N :=
  let v1 := N.lor (N.ldiff v CPTR_SIMD_MASK) (N.shiftl 3 20) in
  let v2 := if sve_en c then N.lor v1 (N.shiftl 3 16) else v1 in
  if sme_en c then N.lor v2 (N.shiftl 3 24) else v2.
(** simd.h:242-252 SIMD_DISABLE_ALL_CPTR_FLAGS *)
Definition cptr_disable (v : N) : N := N.lor (N.ldiff v CPTR_SIMD_MASK) (N.lor (N.lor (N.shiftl 0 20) (N.shiftl 0 16)) (N.shiftl 0 24)).
(** simd.c:289-303 *)
Definition validate_config (g c : simd_config) : bool :=
  negb (sve_en c && (negb (sve_en g) || (sve_vq g <? sve_vq c))) && negb (sme_en c && negb (sme_en g)).
(** simd.c:320-377 simd_context_init; [None] is -1. *)
Definition context_init (h : simd_hw) (o : sowner) (c : sctx) (g : simd_config) : option sctx :=
  if x_init c then None else
  if negb (validate_config (cpu_config h) g) then None else
  Some (mkCtx o (if sve_en g then true else x_sve c) (if sme_en g then true else x_sme c) true
          (match o with REL1 => true | NWD => false end) (x_hint c)
          (cptr_enable g CPTR_INIT)
          (if sme_en g then 0 else x_svcr c)
          (if sve_en g then N.lor 0 (N.land (sve_vq g) 15) else x_zcr2 c)
          (x_ns_zcr2 c) (x_fpsr c) (x_fpcr c) (x_zcr1 c) (x_mem c)).

(** runtime/core/init.c:108-111 and run.c:239-252: the state in which the first SMC finds
    the RMM; head.S:34-35 set CPTR_EL2. [None]: the assertion of run.c:250 fails. *)
Definition sboot (h : simd_hw) (f : N -> regs) : option sstate :=
  option_map (fun c => mkS (fun p => set_cptr CPTR_INIT (f p)) (fun _ => false) (fun _ => c) (fun _ => None) (fun _ => None))
    (context_init h NWD zero_ctx (cpu_config h)).

(** ** Events *)

Inductive access := AFpu | ASve | ASme.
Inductive sop :=
| OHostUse (p : N) (n : regs)                       (* the host computes on CPU p *)
| OHostSmc (p : N) (hint : bool) (fpu : option regs) (* a command; fpu: the handler uses SIMD, leaving this behind *)
| OHostEnter (p i : N) (hint pending : bool)        (* REC_ENTER *)
| ORealmUse (p : N) (k : access) (n : regs) (pending : bool)
                                                    (* the realm executes a SIMD instruction *)
| ORealmCall (p : N) (fpu : option regs) (stay pending : bool) (* an RSI call *)
| ORealmExit (p : N)                                (* another exit to the host *)
| OCreate (i : N) (sve : bool) (vq : N)             (* REC_CREATE in a realm with these parameters *)
| ODestroy (i : N).

(** Code of the host: everything but the RMM's trap register, which EL3 banks. A CPU
    without SME has no SVCR or SMCR_EL2. *)
Definition host_use (h : simd_hw) (n r : regs) : regs := set_cptr (v_cptr r) n.
(** Code of the realm, or of the RMM: vector registers, FPSR and FPCR, and ZCR_EL1 if the
    realm has SVE. *)
Definition vec_use (zcr : bool) (n r : regs) : regs :=
  mkRegs (v_z n) (v_p n) (v_ffr n) (v_fpsr n) (v_fpcr n) (if zcr then v_zcr1 n else v_zcr1 r) (v_zcr2 r) (v_svcr r) (v_smcr r) (v_za r) (v_cptr r).
(** Whether hardware traps the access to EL2. *)
Definition traps (h : simd_hw) (k : access) (r : regs) : bool :=
  match k with
  | AFpu => negb (fpen (v_cptr r))
  | ASve => negb (zen (v_cptr r))
  | ASme => negb (smen (v_cptr r)) || streaming h r
  end.

(** simd.c:380-392 *)
Definition update_hint (p : N) (hint : bool) (s : sstate) : sres sstate :=
  let c := q_ns s p in
  let! _ := must (x_init c) in
  if x_sve c then let! _ := must (negb (x_saved c)) in SOk (with_ns p (set_hint hint c) s) else SOk s.
(** handler.c:316-322 *)
Definition smc_begin (p : N) (hint : bool) (s : sstate) : sres sstate :=
  let! _ := must (negb (q_saved s p)) in update_hint p hint s.
(** handler.c:382 *)
Definition smc_end (p : N) (s : sstate) : sres sstate := let! _ := must (negb (q_saved s p)) in SOk s.
(** simd.h:258-271 SIMD_FPU_ALLOW: the RMM computes with FPU registers. *)
Definition rmm_use (p : N) (n : regs) (s : sstate) : sres sstate :=
  let! _ := must (q_saved s p) in SOk (with_cpu p (vec_use false n (q_cpu s p)) s).
(** handler.c:325-328, 376-379; exit.c:404-407, 454-456 *)
Definition around_fpu (h : simd_hw) (p : N) (a : ptr) (fpu : option regs) (s : sstate) : sres sstate :=
  match fpu with
  | None => SOk s
  | Some n =>
    let! (s1, _) := simd_switch h p (Some a) None s in
    let! s2 := rmm_use p n s1 in
    let! (s3, _) := simd_switch h p None (Some a) s2 in
    SOk s3
  end.

Definition set_active o (x : srec) := mkSRec (r_ctx x) (r_cfg x) (r_cptr x) o (r_on x).
Definition set_on o (x : srec) := mkSRec (r_ctx x) (r_cfg x) (r_cptr x) (r_active x) o.
Definition set_rcptr a (x : srec) := mkSRec (r_ctx x) (r_cfg x) a (r_active x) (r_on x).
Definition ptr_eqb (a b : ptr) : bool := match a, b with PNs p, PNs q => p =? q | PRec p, PRec q => p =? q | _, _ => false end.
Definition active_is (o : option ptr) (a : ptr) : bool := match o with Some b => ptr_eqb b a | None => false end.

(** run.c:336-352, back to the host *)
Definition leave (h : simd_hw) (p i : N) (s : sstate) : sres sstate :=
  match q_rec s i with
  | None => SPanic
  | Some x =>
    let! s1 := (if active_is (r_active x) (PRec i) then
                  let! (s', _) := simd_switch h p (Some (PRec i)) (Some (PNs p)) s in
                  match q_rec s' i with
                  | Some x' => SOk (with_rec i (Some (set_rcptr (cptr_disable (r_cptr x')) x')) s')
                  | None => SPanic
                  end
                else SOk s) in
    match q_rec s1 i with
    | Some x1 => let! s2 := smc_end p (with_rec i (Some (set_on None (set_active None x1))) s1) in SOk (with_run p None s2)
    | None => SPanic
    end
  end.
(** run.c:293-321: one more round, unless a timer is pending *)
Definition round (h : simd_hw) (p i : N) (pending : bool) (s : sstate) : sres sstate :=
  let rmm := v_cptr (q_cpu s p) in
  if pending then leave h p i s else
  match q_rec s i with
  | None => SPanic
  | Some x => SOk (with_run p (Some (i, rmm)) (if rmm =? r_cptr x then s else with_cpu p (set_cptr (r_cptr x) (q_cpu s p)) s))
  end.
(** run.c:329-333: the realm stops executing *)
Definition stop (p rmm : N) (x : srec) (s : sstate) : sstate :=
  if rmm =? r_cptr x then s else with_cpu p (set_cptr rmm (q_cpu s p)) s.

(** exit.c:303-357 handle_simd_exception. Injecting an abort leaves the SIMD state alone. *)
Definition handle_simd (h : simd_hw) (p i : N) (k : access) (s : sstate) : sres sstate :=
  match q_rec s i with
  | None => SPanic
  | Some x =>
    let inject := match k with
                  | ASve => negb (sve_en (r_cfg x))
                  | ASme => negb (sve_en (r_cfg x)) || active_is (r_active x) (PRec i)
                  | AFpu => false
                  end in
    if inject then SOk s else
    let! _ := must (negb (active_is (r_active x) (PRec i))) in
    let! (s1, a) := simd_switch h p (r_active x) (Some (PRec i)) s in
    match q_rec s1 i with
    | Some x1 => SOk (with_rec i (Some (set_rcptr (cptr_enable (r_cfg x1) (r_cptr x1)) (set_active a x1))) s1)
    | None => SPanic
    end
  end.

(** [None]: the event cannot happen in this state. *)
Definition sstep (h : simd_hw) (s : sstate) (o : sop) : option (sres sstate) :=
  match o with
  | OHostUse p n => match q_run s p with None => Some (SOk (with_cpu p (host_use h n (q_cpu s p)) s)) | Some _ => None end
  | OHostSmc p hint fpu =>
    match q_run s p with
    | None => Some (let! s1 := smc_begin p hint s in let! s2 := around_fpu h p (PNs p) fpu s1 in smc_end p s2)
    | Some _ => None
    end
  | OHostEnter p i hint pending =>
    match q_run s p, q_rec s i with
    | None, Some x =>
      match r_on x with
      | Some _ => None
      | None =>
        Some (let! s1 := smc_begin p hint s in
              let! _ := must (match r_active x with None => true | Some _ => false end) in
              round h p i pending (with_rec i (Some (set_on (Some p) (set_active (Some (PNs p)) x))) s1))
      end
    | _, _ => None
    end
  | ORealmUse p k n pending =>
    match q_run s p with
    | Some (i, rmm) =>
      match q_rec s i with
      | Some x =>
        if traps h k (q_cpu s p) then Some (let! s1 := handle_simd h p i k (stop p rmm x s) in round h p i pending s1)
        else Some (SOk (with_cpu p (vec_use (sve_en (r_cfg x)) n (q_cpu s p)) s))
      | None => None
      end
    | None => None
    end
  | ORealmCall p fpu stay pending =>
    match q_run s p with
    | Some (i, rmm) =>
      match q_rec s i with
      | Some x =>
        match r_active x with
        | Some a => Some (let! s1 := around_fpu h p a fpu (stop p rmm x s) in if stay then round h p i pending s1 else leave h p i s1)
        | None => Some SPanic
        end
      | None => None
      end
    | None => None
    end
  | ORealmExit p =>
    match q_run s p with
    | Some (i, rmm) => match q_rec s i with Some x => Some (leave h p i (stop p rmm x s)) | None => None end
    | None => None
    end
  | OCreate i sve vq =>
    match q_rec s i with
    | Some _ => None
    | None =>
      (* realm.c:262-275 and 447-450: the parameters were checked against the features *)
      if sve && (negb (sve_en (cpu_config h)) || (sve_vq (cpu_config h) <? vq)) then None else
      let g := mkCfg sve (if sve then vq else 0) false in
      (* rec.c:194-201: the context lies in an auxiliary granule full of zeros *)
      match context_init h REL1 zero_ctx g with
      | Some c => Some (SOk (with_rec i (Some (mkSRec c g CPTR_INIT None None)) s))
      | None => Some SPanic
      end
    end
  | ODestroy i =>
    match q_rec s i with
    | Some x => match r_on x with None => Some (SOk (with_rec i None s)) | Some _ => None end
    | None => None
    end
  end.
