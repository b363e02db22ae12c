(** The realm initial measurement (RIM), RMM specification A7.1: what is measured when a
    realm is built, independent of the code that measures. *)
From Coq Require Import NArith ZArith List Bool.
From Verif Require Import Bits S2tte State Granule Measure RmiRtt RmiRealm Psci RmiRec Rsi RecRun Arch Mmu Machine Spec SpecStep SpecTables.
Import ListNotations.
Local Open Scope N_scope.

(** What is added to a new realm: a page at an address, with its 512 words if they are
    to be measured; a runnable REC; RAM *)
Inductive bstep :=
| BData (ipa : N) (contents : option (list N))
| BRec (flags pc : N) (gprs : list N)
| BRipas (base top : N).

(** The parameters of a realm that are measured *)
Definition measured (p : rparams) : list N :=
  [p_flags p; p_s2sz p; p_sve_vl p; p_num_bps p; p_num_wps p; p_pmu_num_ctrs p; p_algorithm p].

(** The chain: [H] is the hash function of the realm *)
Definition extend (H : list N -> N) (rim : N) (b : bstep) : N :=
  match b with
  | BData ipa None => H [0; 256; rim; ipa; 0; 0]
  | BData ipa (Some w) => H [0; 256; rim; ipa; 1; H w]
  | BRec flags pc gprs => H [1; 256; rim; H (flags :: pc :: gprs)]
  | BRipas base top => H [2; 256; rim; base; top]
  end.
Definition rim_of (H : list N -> N) (p : rparams) (l : list bstep) : N := fold_left (extend H) l (H (measured p)).

(** ** Which steps of a history build a realm *)

(** The blocks of [size] between [base] and [top] *)
Definition blocks (size base top : N) : list bstep :=
  map (fun i => BRipas (base + N.of_nat i * size) (base + (N.of_nat i + 1) * size)) (seq 0 (N.to_nat ((top - base) / size))).
(** The size of the memory that the table entry for [ipa] describes *)
Definition entry_size (m : mstate) (a ipa : N) : N :=
  match g_mem (m_gr m a) with
  | CRd d => match entry_at (m_gr m) (rd_ctx d) ipa 3 with Some (_, level, _) => 2 ^ arch_lsb level | None => 0 end
  | _ => 0
  end.
(** The words of the host's page *)
Definition words_of (m : mstate) (a : N) : list N := match g_mem (m_gr m a) with CW f => map f idx512 | _ => [] end.

(** What a step in state [m] adds to the realm [a] *)
Definition adds (m : mstate) (o : op) (rp : reply) (a : N) : list bstep :=
  match o, rp with
  | OCmd _ k, Reply r =>
    if x0 r =? 0 then
      match k with
      | KDataCreate _ rd _ ipa src flags => if rd =? a then [BData ipa (if flags =? 1 then Some (words_of m src) else None)] else []
      | KRecCreate (Some p) rd _ _ =>
          if (rd =? a) && N.testbit (rp_flags p) 0 then [BRec (rp_flags p) (rp_pc p) (map (rp_gprs p) [0; 1; 2; 3; 4; 5; 6; 7])] else []
      | KRttInitRipas rd base _ => if rd =? a then blocks (entry_size m a base) base (x1 r) else []
      | _ => []
      end
    else []
  | _, _ => []
  end.

(** The realm [a] of state [m] was created with parameters [p] and then built by [l] *)
Inductive built (c : cfg) (h : hw) : mstate -> N -> rparams -> list bstep -> Prop :=
| built_first : forall m o m' rp p a pa r, next c h m o m' rp -> done o rp (KRealmCreate (Some p) a pa) r -> built c h m' a p []
| built_next : forall m a p l o m' rp d d', built c h m a p l -> next c h m o m' rp -> realm m a d -> realm m' a d' ->
    built c h m' a p (l ++ adds m o rp a).

(** Two inputs of the hash function never have the same digest *)
Definition collision_free (H : list N -> N) : Prop := forall l l', H l = H l' -> l = l'.
