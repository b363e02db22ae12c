(** The RMI commands of the interface (RMM specification, B4.3), independent of the
    monitor's table. *)
From Coq Require Import NArith ZArith List Bool.
From Verif Require Import Bits State Granule Machine Dispatch.
Import ListNotations.
Local Open Scope N_scope.

(** A command, its number within the range of RMI, the number of its input values and
    of its output values besides the status *)
Definition interface : list (rmi_fn * N * N * N) :=
  [ (FVersion, 0, 1, 2); (FGranuleDelegate, 1, 1, 0); (FGranuleUndelegate, 2, 1, 0); (FDataCreate, 3, 5, 0);
    (FDataCreateUnknown, 4, 3, 0); (FDataDestroy, 5, 2, 2); (FRealmActivate, 7, 1, 0); (FRealmCreate, 8, 2, 0);
    (FRealmDestroy, 9, 1, 0); (FRecCreate, 10, 3, 0); (FRecDestroy, 11, 1, 0); (FRecEnter, 12, 2, 0);
    (FRttCreate, 13, 4, 0); (FRttDestroy, 14, 3, 2); (FRttMapUnprotected, 15, 4, 0); (FRttReadEntry, 17, 3, 4);
    (FRttUnmapUnprotected, 18, 3, 1); (FPsciComplete, 20, 3, 0); (FFeatures, 21, 1, 1); (FRttFold, 22, 3, 1);
    (FRecAuxCount, 23, 1, 1); (FRttInitRipas, 24, 3, 1); (FRttSetRipas, 25, 4, 1) ].

(** The function identifier of command [n]: 0xC4000150 + n *)
Definition rmi_fid (n : N) : N := 3288334672 + n.
(** [x0] names command [n].  The host may set bit 16 of an identifier (SMCCC 1.3: no
    live SVE state); bits above 31 are not part of it (SMCCC 2.5: W0). *)
Definition names (x0 : N) (n : N) : Prop := x0 mod 2 ^ 32 = rmi_fid n \/ x0 mod 2 ^ 32 = rmi_fid n + 2 ^ 16.

(** The command that an operation is, with its input values in order *)
Definition op_call (o : op) : option (rmi_fn * list N) :=
  match o with
  | OCmd _ k =>
    match k with
    | KUnknown => None
    | KVersion a => Some (FVersion, [a])
    | KFeatures a => Some (FFeatures, [a])
    | KGranuleDelegate _ a => Some (FGranuleDelegate, [a])
    | KGranuleUndelegate _ a => Some (FGranuleUndelegate, [a])
    | KDataCreate _ rd data ipa src flags => Some (FDataCreate, [rd; data; ipa; src; flags])
    | KDataCreateUnknown rd data ipa => Some (FDataCreateUnknown, [rd; data; ipa])
    | KDataDestroy rd ipa => Some (FDataDestroy, [rd; ipa])
    | KRealmActivate rd => Some (FRealmActivate, [rd])
    | KRealmCreate _ rd params => Some (FRealmCreate, [rd; params])
    | KRealmDestroy rd => Some (FRealmDestroy, [rd])
    | KRecCreate _ rd rec params => Some (FRecCreate, [rd; rec; params])
    | KRecDestroy rec => Some (FRecDestroy, [rec])
    | KRttCreate rd rtt ipa level => Some (FRttCreate, [rd; rtt; ipa; level])
    | KRttDestroy rd ipa level => Some (FRttDestroy, [rd; ipa; level])
    | KRttMapUnprotected rd ipa level desc => Some (FRttMapUnprotected, [rd; ipa; level; desc])
    | KRttReadEntry rd ipa level => Some (FRttReadEntry, [rd; ipa; level])
    | KRttUnmapUnprotected rd ipa level => Some (FRttUnmapUnprotected, [rd; ipa; level])
    | KPsciComplete calling target status => Some (FPsciComplete, [calling; target; status])
    | KRttFold rd ipa level => Some (FRttFold, [rd; ipa; level])
    | KRecAuxCount rd => Some (FRecAuxCount, [rd])
    | KRttInitRipas rd base top => Some (FRttInitRipas, [rd; base; top])
    | KRttSetRipas rd rec base top => Some (FRttSetRipas, [rd; rec; base; top])
    end
  | OEnter _ rec run_addr _ _ _ => Some (FRecEnter, [rec; run_addr])
  | _ => None
  end.

(** Result register [j] *)
Definition result_reg (r : res) (j : N) : N :=
  if j =? 0 then x0 r else if j =? 1 then x1 r else if j =? 2 then x2 r else if j =? 3 then x3 r else x4 r.
