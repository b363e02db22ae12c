(** Vocabulary of the theorems about cached translations: what a TLB entry shows,
    and histories in which the host does not remove large mappings under the
    feet of the TLB *)
From Coq Require Import NArith ZArith List Bool.
From Verif Require Import Bits S2tte State Granule Measure RmiGranule RmiRtt RmiRealm Psci RmiRec Rsi RecRun Arch Mmu Machine Spec SpecStep.
Import ListNotations.
Local Open Scope N_scope.

(** A CPU that executes the realm [d] may use the TLB entry [t] for [ipa]: the VMID is
    that of the realm and [ipa] is in the block that was translated.  The entry
    holds the descriptor that was read; [pg] is what it says about the page. *)
Definition cached (m : mstate) (d : rdesc) (ipa : N) (pg : page) : Prop :=
  exists t, In t (m_tlb m) /\ t_vmid t = vmid (rd_ctx d) /\ block (t_ipa t) (t_level t) ipa = true /\
    pg = page_desc (enable_lpa2 (rd_ctx d)) (t_level t) (t_word t) ipa.

(** The realm [rd] can access no address of the table of [level] at [map], or the table is one
    of 4KB pages *)
Definition small_or (P : xlat -> Prop) (m : mstate) (rd map : N) (level : Z) : Prop :=
  level = 3%Z \/ forall d ipa, realm m rd d -> block map (level - 1) ipa = true -> P (translate (m_gr m) (rd_ctx d) ipa).
Definition no_memory (x : xlat) : Prop := x = XFault.
Definition no_realm_memory (x : xlat) : Prop := forall l w oa xn, x <> XOk l w oa false xn.

(** Neither tables with large mappings are folded or destroyed, nor realms that
    still have mappings *)
Definition gentle (m : mstate) (o : op) : Prop :=
  match o with
  | OCmd _ (KRttFold rd map ulevel) | OCmd _ (KRttDestroy rd map ulevel) => small_or no_memory m rd map (sgn64 ulevel)
  | OCmd _ (KRealmDestroy rd) => forall d ipa, realm m rd d -> no_memory (translate (m_gr m) (rd_ctx d) ipa)
  | _ => True
  end.
(** No table with large mappings of realm memory is folded *)
Definition no_large_fold (m : mstate) (o : op) : Prop :=
  match o with
  | OCmd _ (KRttFold rd map ulevel) => small_or no_realm_memory m rd map (sgn64 ulevel)
  | _ => True
  end.

(** States that histories lead to in which every operation is [ok] *)
Inductive guided (ok : mstate -> op -> Prop) (c : cfg) (h : hw) : mstate -> Prop :=
| gd_init : forall mem, cfg_ok c -> guided ok c h (init mem)
| gd_next : forall m o m' rp, guided ok c h m -> ok m o -> next c h m o m' rp -> guided ok c h m'.
