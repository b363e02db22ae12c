(** From the registers of an SMC of the host to a command, and back. *)
From Coq Require Import NArith ZArith List Bool.
From Verif Require Import Bits State Granule Measure Gic RecRun Machine.
Import ListNotations.
Local Open Scope N_scope.

(** The functions in the table of handler.c:135-191 *)
Inductive rmi_fn :=
| FVersion | FGranuleDelegate | FGranuleUndelegate | FDataCreate | FDataCreateUnknown | FDataDestroy | FRealmActivate
| FRealmCreate | FRealmDestroy | FRecCreate | FRecDestroy | FRecEnter | FRttCreate | FRttDestroy | FRttMapUnprotected
| FRttReadEntry | FRttUnmapUnprotected | FPsciComplete | FFeatures | FRttFold | FRecAuxCount | FRttInitRipas | FRttSetRipas.

(** handler.c:94-115: struct smc_handler without what is for logging only *)
Record smc_handler := mkHandler { h_fn : option rmi_fn; h_in : N; h_out : N }.
(** handler.c:123-129: HANDLER with a function and with NULL; entries that the
    initializer does not mention are zero *)
Definition HANDLER (f : rmi_fn) (i o : N) : smc_handler := mkHandler (Some f) i o.
Definition HNULL (i o : N) : smc_handler := mkHandler None i o.
Definition HZERO : smc_handler := mkHandler None 0 0.

(** handler.c:135-191; the positions are those of lib/smc/include/smc-rmi.h:232-609 *)
Definition smc_handlers : list smc_handler :=
  [ (* 0x00 *) HANDLER FVersion 1 2; HANDLER FGranuleDelegate 1 0; HANDLER FGranuleUndelegate 1 0; HANDLER FDataCreate 5 0;
    (* 0x04 *) HANDLER FDataCreateUnknown 3 0; HANDLER FDataDestroy 2 2; HNULL 0 0; HANDLER FRealmActivate 1 0;
    (* 0x08 *) HANDLER FRealmCreate 2 0; HANDLER FRealmDestroy 1 0; HANDLER FRecCreate 3 0; HANDLER FRecDestroy 1 0;
    (* 0x0C *) HANDLER FRecEnter 2 0; HANDLER FRttCreate 4 0; HANDLER FRttDestroy 3 2; HANDLER FRttMapUnprotected 4 0;
    (* 0x10 *) HNULL 0 0; HANDLER FRttReadEntry 3 4; HANDLER FRttUnmapUnprotected 3 1; HZERO;
    (* 0x14 *) HANDLER FPsciComplete 3 0; HANDLER FFeatures 1 1; HANDLER FRttFold 3 1; HANDLER FRecAuxCount 1 1;
    (* 0x18 *) HANDLER FRttInitRipas 3 1; HANDLER FRttSetRipas 4 1; HZERO; HZERO; HZERO; HZERO; HZERO; HZERO;
    (* 0x20 *) HNULL 0 0; HNULL 0 0; HNULL 0 0; HNULL 0 0; HNULL 0 0; HNULL 2 0; HNULL 2 0; HNULL 0 0;
    (* 0x28 *) HNULL 1 1; HNULL 0 0; HNULL 0 0; HNULL 4 0; HNULL 0 0; HNULL 0 0; HNULL 0 0; HNULL 0 0;
    (* 0x30 *) HNULL 0 0; HNULL 0 0; HZERO; HNULL 0 0; HNULL 0 0; HNULL 0 0; HNULL 0 0; HNULL 0 0;
    (* 0x38 *) HNULL 0 0; HNULL 0 0; HNULL 0 0; HNULL 0 0; HNULL 0 0; HNULL 0 0; HNULL 0 0 ].

(** lib/smc/include/smc.h:39 *)
Definition SMC_SVE_HINT : N := N.shiftl 1 16.
(** smc.h:52-53, 42-43: SMC_GET_FIELD(fid, FNUM) *)
Definition fid_fnum (fid : N) : N := N.land fid 65535.
(** smc.h:83-84 *)
Definition SMC64_RMI_FNUM_MIN : N := 336.
Definition SMC64_RMI_FNUM_MAX : N := 398.
(** smc.h:115-119: IS_SMC64_FID_STD_FAST; [~] is on 32 bits *)
Definition is_smc64_fid_std_fast (fid : N) : bool :=
  N.land fid (N.lxor (N.ones 32) 65535) =? N.lor (N.lor (N.shiftl 1 30) (N.shiftl 1 31)) (N.shiftl 4 24).
(** smc.h:107-109 and 127-128 for RMI: IS_SMC64_RMI_FID *)
Definition is_smc64_rmi_fid (fid : N) : bool :=
  is_smc64_fid_std_fast fid && ((SMC64_RMI_FNUM_MIN <=? fid_fnum fid) && (fid_fnum fid <=? SMC64_RMI_FNUM_MAX)).

(** handler.c:78-92: the types with a case in the switch of 330-372 *)
Definition rmi_types : list (N * N) :=
  [(0, 0); (1, 0); (2, 0); (3, 0); (4, 0); (5, 0); (1, 1); (1, 2); (2, 2); (3, 1); (3, 2); (3, 4); (4, 1)].

(** What becomes of a call: it is unknown, a handler is called, an assertion fails *)
Inductive disp := DUnknown | DCall (f : rmi_fn) (args : list N) | DPanic.

(** handler.c:271-372: handle_ns_smc up to the call of the handler; [x0] is
    truncated to [unsigned int], [args] are arg0..arg5.  The assertions about slots
    and the SIMD state (313-316, 381-383) are elsewhere in the model. *)
Definition handle_ns_smc (x0 : N) (args : list N) : disp :=
  let function_id := x0 mod 2 ^ 32 in
  let function_id :=
    if negb (N.land function_id SMC_SVE_HINT =? 0) then N.land function_id (N.lxor (N.ones 32) SMC_SVE_HINT) else function_id in
  let handler :=
    if is_smc64_rmi_fid function_id then nth_error smc_handlers (N.to_nat (fid_fnum function_id - SMC64_RMI_FNUM_MIN)) else None in
  match handler with
  | None => DUnknown
  | Some h =>
    match h_fn h with
    | None => DUnknown
    | Some f =>
      if existsb (fun t => (fst t =? h_in h) && (snd t =? h_out h)) rmi_types then DCall f (firstn (N.to_nat (h_in h)) args)
      else DPanic
    end
  end.

(** What a handler reads besides its arguments: the answer of EL3, whether pages of the
    host can be read and what they hold, what the CPU reports when a REC leaves *)
Record smc_env := mkEnv {
  e_el3 : bool; e_readable : bool; e_realm_params : option rparams; e_rec_params : option rec_params;
  e_enter : option rec_enter; e_fin : fin; e_timers : timers
}.

(** handler.c:330-372: the call of the handler with its arguments.  [p] is the CPU. *)
Definition call_op (p : N) (e : smc_env) (f : rmi_fn) (args : list N) : op :=
  let a i := nth i args 0 in
  match f with
  | FVersion => OCmd p (KVersion (a 0%nat))
  | FGranuleDelegate => OCmd p (KGranuleDelegate (e_el3 e) (a 0%nat))
  | FGranuleUndelegate => OCmd p (KGranuleUndelegate (e_el3 e) (a 0%nat))
  | FDataCreate => OCmd p (KDataCreate (e_readable e) (a 0%nat) (a 1%nat) (a 2%nat) (a 3%nat) (a 4%nat))
  | FDataCreateUnknown => OCmd p (KDataCreateUnknown (a 0%nat) (a 1%nat) (a 2%nat))
  | FDataDestroy => OCmd p (KDataDestroy (a 0%nat) (a 1%nat))
  | FRealmActivate => OCmd p (KRealmActivate (a 0%nat))
  | FRealmCreate => OCmd p (KRealmCreate (e_realm_params e) (a 0%nat) (a 1%nat))
  | FRealmDestroy => OCmd p (KRealmDestroy (a 0%nat))
  | FRecCreate => OCmd p (KRecCreate (e_rec_params e) (a 0%nat) (a 1%nat) (a 2%nat))
  | FRecDestroy => OCmd p (KRecDestroy (a 0%nat))
  | FRecEnter => OEnter p (a 0%nat) (a 1%nat) (e_enter e) (e_fin e) (e_timers e)
  | FRttCreate => OCmd p (KRttCreate (a 0%nat) (a 1%nat) (a 2%nat) (a 3%nat))
  | FRttDestroy => OCmd p (KRttDestroy (a 0%nat) (a 1%nat) (a 2%nat))
  | FRttMapUnprotected => OCmd p (KRttMapUnprotected (a 0%nat) (a 1%nat) (a 2%nat) (a 3%nat))
  | FRttReadEntry => OCmd p (KRttReadEntry (a 0%nat) (a 1%nat) (a 2%nat))
  | FRttUnmapUnprotected => OCmd p (KRttUnmapUnprotected (a 0%nat) (a 1%nat) (a 2%nat))
  | FPsciComplete => OCmd p (KPsciComplete (a 0%nat) (a 1%nat) (a 2%nat))
  | FFeatures => OCmd p (KFeatures (a 0%nat))
  | FRttFold => OCmd p (KRttFold (a 0%nat) (a 1%nat) (a 2%nat))
  | FRecAuxCount => OCmd p (KRecAuxCount (a 0%nat))
  | FRttInitRipas => OCmd p (KRttInitRipas (a 0%nat) (a 1%nat) (a 2%nat))
  | FRttSetRipas => OCmd p (KRttSetRipas (a 0%nat) (a 1%nat) (a 2%nat) (a 3%nat))
  end.

(** The operation of the whole system that an SMC with registers x0..x6 is; [None] if
    an assertion fails *)
Definition smc_op (p : N) (e : smc_env) (x0 : N) (args : list N) : option op :=
  match handle_ns_smc x0 args with
  | DUnknown => Some (OCmd p KUnknown)
  | DCall f l => Some (call_op p e f l)
  | DPanic => None
  end.

(** runtime/core/aarch64/entry.S:12-44: the registers x0..x4 that the host gets.  x1..x3
    are 0 and x4 is what the host passed unless a handler sets them; the only handler
    that sets x4 is that of RTT_READ_ENTRY, when it succeeds (runtime/rmi/rtt.c). *)
Definition smc_regs (o : op) (in4 : N) (r : res) : list N :=
  [x0 r; x1 r; x2 r; x3 r;
   match o with OCmd _ (KRttReadEntry _ _ _) => if x0 r =? RMI_SUCCESS then x4 r else in4 | _ => in4 end].
