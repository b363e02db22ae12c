(** Several CPUs executing the RMI commands at the same time.

    The CPUs share the granules with their lock bits, the VMID bitmap and the
    TLBs; the slot buffers and the rest of the program are per CPU.  One step is
    one action of one CPU (Act.v).  The memory accesses are sequentially
    consistent: the acquire and release orderings of granule_lock.h:11-45 and of
    granule.h:234-292 are not modelled.  RMI_REC_ENTER, and what happens while a
    REC runs, is not a job here: it is an arbitrary change of what the lock of a
    granule does not protect (see [Env]). *)
From Coq Require Import NArith ZArith List Bool.
From Verif Require Import Bits S2tte State Granule Machine Act.
Import ListNotations.
Local Open Scope N_scope.

(** A CPU that handles a command: [u_held] records the granule locks that it
    took and did not release since; nothing in the code depends on it. *)
Record cpu := mkCpu { u_cmd : cmd; u_prog : prog res; u_slots : N -> bool; u_held : list N }.

Record conc := mkC {
  k_locks : N -> bool;
  k_gr : N -> granule;
  k_vmids : N -> bool;
  k_tlb : list tlbe;
  k_cpu : N -> option cpu
}.

Definition local (m : conc) (u : cpu) : state := mkS (k_locks m) (u_slots u) (k_gr m) (k_vmids m) (k_tlb m).
Definition shared (s : state) (f : N -> option cpu) : conc := mkC (s_locks s) (s_gr s) (s_vmids s) (s_tlb s) f.

(** The locks held after the next action *)
Fixpoint drop1 (g : N) (l : list N) : list N :=
  match l with [] => [] | h :: t => if h =? g then t else h :: drop1 g t end.
Definition held_after (p : prog res) (l : list N) : list N :=
  match p with Lock g _ => g :: l | Unlock g _ => drop1 g l | _ => l end.

(** [Start p k G]: CPU [p] takes an SMC with command [k]; [G] is the memory
    seen by the copy from the host (rtt.c:958), which the host can change at any
    time.  [Go p]: CPU [p] makes its next action, or returns to the host.
    [Env G t]: RECs and the host run: the contents of granules that hold no
    tables and no realm descriptors change, reference counts of RECs change, TLB
    entries come. *)
Inductive event := Start (p : N) (k : cmd) (G : N -> granule) | Go (p : N) | Env (G : N -> granule) (t : list tlbe).

Definition env_ok (G G' : N -> granule) : Prop :=
  forall g, g_state (G' g) = g_state (G g) /\
    match g_state (G g) with
    | NS | DATA | REC_AUX => g_ref (G' g) = g_ref (G g)
    | REC => True
    | _ => G' g = G g
    end.

Inductive cstep (c : cfg) : conc -> event -> conc -> Prop :=
| c_start : forall m p k G, k_cpu m p = None ->
    cstep c m (Start p k G)
      (mkC (k_locks m) (k_gr m) (k_vmids m) (k_tlb m)
           (upd (k_cpu m) p (Some (mkCpu k (cmd_prog c G k) (fun _ => false) []))))
| c_next : forall m p u p' s', k_cpu m p = Some u -> act (u_prog u) (local m u) = ANext p' s' ->
    cstep c m (Go p)
      (shared s' (upd (k_cpu m) p (Some (mkCpu (u_cmd u) p' (s_slots s') (held_after (u_prog u) (u_held u))))))
| c_end : forall m p u r, k_cpu m p = Some u -> u_prog u = Ret r ->
    cstep c m (Go p) (mkC (k_locks m) (k_gr m) (k_vmids m) (k_tlb m) (upd (k_cpu m) p None))
| c_env : forall m G t, env_ok (k_gr m) G ->
    cstep c m (Env G t) (mkC (k_locks m) G (k_vmids m) t (k_cpu m)).

(** No CPU is handling a command, no lock is taken *)
Definition idle (m : conc) : Prop := (forall g, k_locks m g = false) /\ (forall p, k_cpu m p = None).
