(** Vocabulary for C36: the granules of a realm, and sequences of commands that all
    succeed. *)
From Coq Require Import NArith ZArith List Bool.
From Verif Require Import Bits S2tte State Granule Measure RmiRealm Psci RmiRec Gic Esr Rsi RecRun Arch Mmu Machine SpecExit Spec SpecStep SpecTables.
Import ListNotations.
Local Open Scope N_scope.

(** The granules of the realm [rd]: its descriptor, its tables, its memory, its RECs
    and their auxiliary granules *)
Inductive belongs (m : mstate) (rd : N) : N -> Prop :=
| b_rd : belongs m rd rd
| b_table : forall d l t a, realm m rd d -> table_of (m_gr m) (rd_ctx d) l t a -> belongs m rd a
| b_data : forall d ipa a, realm m rd d -> page_granule (page_at (m_gr m) (rd_ctx d) ipa) = Some a -> belongs m rd a
| b_rec : forall r a, rec_is m a r -> r_g_rd r = rd -> belongs m rd a
| b_aux : forall r b a, rec_is m b r -> r_g_rd r = rd -> In a (r_aux r) -> belongs m rd a.

(** The host issues the commands [l] on CPU [p], one after the other, and each of
    them returns RMI_SUCCESS *)
Inductive succeed (c : cfg) (h : hw) (p : N) : mstate -> list cmd -> mstate -> Prop :=
| s_nil : forall m, succeed c h p m [] m
| s_cons : forall m k r m1 l m', step c h m (OCmd p k) = RDone m1 (Reply r) -> x0 r = 0 -> succeed c h p m1 l m' ->
    succeed c h p m (k :: l) m'.

(** The commands that take a realm apart *)
Definition dismantles (k : cmd) : Prop :=
  match k with KDataDestroy _ _ | KRttCreate _ _ _ _ | KRttDestroy _ _ _ | KRecDestroy _ | KRealmDestroy _ => True | _ => False end.

(** None of the realm's memory is mapped by a block: every page has its own descriptor *)
Definition no_blocks (m : mstate) (d : rdesc) : Prop :=
  forall ipa, page_granule (page_at (m_gr m) (rd_ctx d) ipa) <> None -> exists a w, entry_at (m_gr m) (rd_ctx d) ipa 3 = Some (a, 3%Z, w).
(** Two granules that can become tables of the realm *)
Definition two_spares (m : mstate) (d : rdesc) : Prop :=
  exists f g, f <> g /\ g_state (m_gr m f) = DELEGATED /\ g_state (m_gr m g) = DELEGATED /\ in_reach d f /\ in_reach d g.
