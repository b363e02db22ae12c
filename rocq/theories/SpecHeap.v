(** Vocabulary of the theorems about the heap of the crypto library.  Nothing here models
    code. *)
From Coq Require Import NArith List Bool.
From Verif Require Import Heap.
Import ListNotations.
Local Open Scope N_scope.

(** The byte at an address *)
Definition byte (m : words) (a : N) : N := m (a / 8 * 8) / 2 ^ (8 * (a mod 8)) mod 256.
(** Ranges of [n] and [k] bytes that have no byte in common *)
Definition apart (a n b k : N) : Prop := a + n <= b \/ b + k <= a.
Definition up8 (x : N) : N := (x + 7) / 8 * 8.

(** An allocation that was not freed: the heap it is from, its address and the size asked for *)
Record alloc := mkAlloc { al_heap : N; al_ptr : N; al_len : N }.
(** The buffer that each heap was last given *)
Definition arenas := N -> option (N * N).

Definition has_heap (s : hstate) (p : N) : Prop := exists i, hs_cpu s p = Some i.
(** What the callers of the allocator have to keep to: the CPU has a heap; a buffer does not wrap around, and it is
    not that of another heap; only allocations of the heap are freed; only allocations
    are written to; the check at each free is not switched on (see C37_verify_refuted) *)
Definition legal (s : hstate) (L : list alloc) (A : arenas) (o : hop) : Prop :=
  match o with
  | HAssign _ _ => True
  | HUnassign p | HDrop p | HVerify p => has_heap s p
  | HInit p buf len => exists i, hs_cpu s p = Some i /\ 0 < buf /\ buf + len < 2 ^ 64 /\
      forall j b n, j <> i -> A j = Some (b, n) -> apart buf len b n
  | HCalloc p n size => has_heap s p /\ n < 2 ^ 64 /\ size < 2 ^ 64
  | HFree p ptr => exists i, hs_cpu s p = Some i /\ (ptr = 0 \/ exists n, In (mkAlloc i ptr n) L)
  | HSetVerify p v => has_heap s p /\ v mod 4 < 2
  | HWrite a v => exists x, In x L /\ al_ptr x <= a < al_ptr x + al_len x
  end.

(** The allocations and buffers after a call of a CPU with the heap [i] *)
Definition live_after (i : option N) (o : hop) (rp : hreply) (L : list alloc) : list alloc :=
  match i, o, rp with
  | Some i, HCalloc _ n size, HPtr a => if a =? 0 then L else mkAlloc i a (n * size) :: L
  | Some i, HFree _ ptr, _ => filter (fun x => negb ((al_heap x =? i) && (al_ptr x =? ptr))) L
  | Some i, HInit _ _ _, _ | Some i, HDrop _, _ => filter (fun x => negb (al_heap x =? i)) L
  | _, _, _ => L
  end.
Definition arenas_after (i : option N) (o : hop) (A : arenas) : arenas :=
  match i, o with
  | Some i, HInit _ buf len => fun j => if j =? i then Some (buf, len) else A j
  | Some i, HDrop _ => fun j => if j =? i then None else A j
  | _, _ => A
  end.
Definition on_cpu (s : hstate) (o : hop) : option N :=
  match o with
  | HInit p _ _ | HDrop p | HCalloc p _ _ | HFree p _ => hs_cpu s p
  | _ => None
  end.

(** Histories: any memory at first, and no heap *)
Inductive history : hstate -> list alloc -> arenas -> Prop :=
| hy_start : forall m, history (mkHs m (fun _ => no_heap) (fun _ => None)) [] (fun _ => None)
| hy_step : forall s L A o s' rp, history s L A -> legal s L A o -> hstep s o = Some (s', rp) ->
    history s' (live_after (on_cpu s o) o rp L) (arenas_after (on_cpu s o) o A).

(** The heap [i] can hold something: its buffer has room for a header and 8 bytes *)
Definition set_up (A : arenas) (i buf len : N) : Prop := A i = Some (buf, len) /\ 72 <= len.
