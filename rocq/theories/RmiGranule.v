(** Model of runtime/rmi/granule.c. *)
From Coq Require Import NArith ZArith List Bool.
From Verif Require Import Bits S2tte State Granule.
Local Open Scope N_scope.

(** runtime/rmi/granule.c:14-37; [el3_ok] is the answer of EL3 to
    rmm_el3_ifc_gtsi_delegate *)
Definition smc_granule_delegate (c : cfg) (el3_ok : bool) (addr : N) : prog N :=
  ok <- find_lock_granule c addr NS ;;
  if negb ok then Ret RMI_ERROR_INPUT
  else if negb el3_ok then granule_unlock addr ;;; Ret RMI_ERROR_INPUT
  else
    granule_set_state addr DELEGATED ;;;
    buffer_granule_memzero addr SLOT_DELEGATED ;;;
    granule_unlock addr ;;;
    Ret RMI_SUCCESS.

(** runtime/rmi/granule.c:39-62 *)
Definition smc_granule_undelegate (c : cfg) (el3_ok : bool) (addr : N) : prog N :=
  ok <- find_lock_granule c addr DELEGATED ;;
  if negb ok then Ret RMI_ERROR_INPUT
  else if negb el3_ok then granule_unlock addr ;;; Panic
  else
    granule_set_state addr NS ;;;
    granule_unlock addr ;;;
    Ret RMI_SUCCESS.
