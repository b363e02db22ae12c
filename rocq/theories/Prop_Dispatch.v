(** C41: the dispatch of the host's SMCs. *)
From Coq Require Import NArith ZArith List Bool.
From Verif Require Import Bits State Granule Machine Spec SpecStep Dispatch SpecDispatch DispatchFacts Demo Demo2.
Import ListNotations.
Local Open Scope N_scope.

(** An SMC calls the handler of a command exactly when its identifier names this
    command of the interface, and the handler gets the first registers, in order, as
    many as the command has inputs. *)
Theorem C41_dispatch : forall x0 args f l,
  handle_ns_smc x0 args = DCall f l <->
  exists n i o, In (f, n, i, o) interface /\ names x0 n /\ l = firstn (N.to_nat i) args.
Proof. exact dispatch_call. Qed.

(** Any other identifier, of 2^64, is unknown; and the dispatcher never panics. *)
Theorem C41_unknown : forall x0 args,
  handle_ns_smc x0 args = DUnknown <-> forall f n i o, In (f, n, i, o) interface -> ~ names x0 n.
Proof. exact dispatch_unknown. Qed.
Theorem C41_total : forall x0 args, handle_ns_smc x0 args <> DPanic.
Proof. exact dispatch_never_panics. Qed.

(** No identifier names two commands. *)
Theorem C41_names_once : forall x0 f n i o f' n' i' o', In (f, n, i, o) interface -> In (f', n', i', o') interface ->
  names x0 n -> names x0 n' -> (f, n, i, o) = (f', n', i', o').
Proof. exact names_once. Qed.

(** Every SMC is one operation of the monitor: the command it names with the arguments
    in the registers, or the operation of an unknown call. *)
Theorem C41_operation : forall p e x0 args, (6 <= length args)%nat ->
  (exists o f n i j, smc_op p e x0 args = Some o /\ In (f, n, i, j) interface /\ names x0 n /\
     op_call o = Some (f, firstn (N.to_nat i) args)) \/
  (smc_op p e x0 args = Some (OCmd p KUnknown) /\ forall f n i j, In (f, n, i, j) interface -> ~ names x0 n).
Proof. exact smc_op_total. Qed.

(** An unknown call returns -1 in x0 and no data, and changes nothing at all. *)
Theorem C41_unknown_effect : forall c h m m' rp p e x0 args in4, smc_op p e x0 args = Some (OCmd p KUnknown) ->
  next c h m (OCmd p KUnknown) m' rp ->
  same m m' /\ exists r, rp = Reply r /\ smc_regs (OCmd p KUnknown) in4 r = [2 ^ 64 - 1; 0; 0; 0; in4].
Proof. exact smc_unknown. Qed.

(** A register that holds no result of the command is zero, or, for x4, what the host
    passed. *)
Theorem C41_results : forall c h m p k m' r f args n i o in4, next c h m (OCmd p k) m' (Reply r) ->
  op_call (OCmd p k) = Some (f, args) -> In (f, n, i, o) interface ->
  exists w1 w2 w3 w4, smc_regs (OCmd p k) in4 r = [x0 r; w1; w2; w3; w4] /\
    (w1 = 0 \/ 1 <= o) /\ (w2 = 0 \/ 2 <= o) /\ (w3 = 0 \/ 3 <= o) /\ (w4 = in4 \/ 4 <= o).
Proof. exact smc_results. Qed.

(** 0xC400016C with the hint bit and garbage above bit 31 is REC_ENTER... *)
Example C41_example : let args := [16; 4096; 3; 4; 5; 6] in
  handle_ns_smc (2 ^ 40 + 3288334672 + 65536 + 12) args = DCall FRecEnter [16; 4096] /\
  handle_ns_smc 3288334674 args = DCall FGranuleUndelegate [16] /\
  (* a number in the range without a command, the first outside, PSCI, an SMC32 call *)
  map (fun x => handle_ns_smc x args) [3288334678; 3288334735; 3288334671; 2214592515; 2214592848] =
    [DUnknown; DUnknown; DUnknown; DUnknown; DUnknown].
Proof. repeat split; vm_compute; reflexivity. Qed.
(** ... and calls succeed in a reachable state *)
Example C41_example_steps :
  let o := OCmd 1 (KRttReadEntry (gr 0) 0 3) in
  next dcfg dhw (after d_base) o (after (d_base ++ [o])) (last_reply (d_base ++ [o])) /\
  smc_regs o 7 (last_res (d_base ++ [o])) = [0; 3; 1; gr 9; 1] /\
  exists m', next dcfg dhw (after d_base) (OCmd 1 KUnknown) m' (Reply (res0 (2 ^ 64 - 1))).
Proof.
  intros o. assert (G : good (d_base ++ [o]) = true) by (vm_compute; reflexivity).
  split; [exact (good_next d_base o G)|]. split; [vm_compute; reflexivity|].
  assert (G' : good (d_base ++ [OCmd 1 KUnknown]) = true) by (vm_compute; reflexivity).
  exists (after (d_base ++ [OCmd 1 KUnknown])). pose proof (good_next d_base _ G') as K.
  replace (last_reply (d_base ++ [OCmd 1 KUnknown])) with (Reply (res0 (2 ^ 64 - 1))) in K by (vm_compute; reflexivity). exact K.
Qed.

Definition dispatch_theorems := (@C41_dispatch, @C41_unknown, @C41_total, @C41_names_once, @C41_operation, @C41_unknown_effect, @C41_results).
Print Assumptions dispatch_theorems.
