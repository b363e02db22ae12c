(** Programs executed one action at a time.  [run] of State.v executes a program
    without interruption; here the same actions are single steps, so that one can
    speak about what happens in the middle of a command and, in Conc.v, about
    several CPUs. *)
From Coq Require Import NArith ZArith List Bool.
From Verif Require Import S2tte State.
Import ListNotations.
Local Open Scope N_scope.

(** One action: the rest of the program, or it ended, waits for a lock, or an
    assertion fails.  Same actions as State.v [run]. *)
Inductive aout (A : Type) := ANext (p : prog A) (s : state) | AEnd (a : A) | AWait (g : N) | AFail.
Arguments ANext {A}. Arguments AEnd {A}. Arguments AWait {A}. Arguments AFail {A}.

Definition act {A} (p : prog A) (s : state) : aout A :=
  match p with
  | Ret a => AEnd a
  | Panic => AFail
  | Lock g k => if s_locks s g then AWait g else ANext k (set_lock s g true)
  | Unlock g k => if s_locks s g then ANext k (set_lock s g false) else AFail
  | AssertLocked g k => if s_locks s g then ANext k s else AFail
  | MapSlot x k => if s_slots s x then AFail else ANext k (set_slot s x true)
  | UnmapSlot x k => if s_slots s x then ANext k (set_slot s x false) else AFail
  | RdState g k => ANext (k (g_state (s_gr s g))) s
  | WrState g v k => let x := s_gr s g in ANext k (set_gr s g (mkG v (g_ref x) (g_mem x)))
  | RdRef g k => ANext (k (g_ref (s_gr s g))) s
  | AddRef g d k =>
      let x := s_gr s g in
      ANext (k (g_ref x)) (set_gr s g (mkG (g_state x) (Z.to_N (Z.of_N (g_ref x) + d)) (g_mem x)))
  | RdMem g k => ANext (k (g_mem (s_gr s g))) s
  | WrMem g c k => let x := s_gr s g in ANext k (set_gr s g (mkG (g_state x) (g_ref x) c))
  | RdWord g i k => match g_mem (s_gr s g) with CW f => ANext (k (f i)) s | _ => AFail end
  | WrWord g i w k =>
      let x := s_gr s g in
      match g_mem x with
      | CW f => ANext k (set_gr s g (mkG (g_state x) (g_ref x) (CW (upd f i w))))
      | _ => AFail
      end
  | VmidSet v k => ANext (k (s_vmids s v)) (set_vmid s v true)
  | VmidClear v k => ANext k (set_vmid s v false)
  | Tlbi v ipa size k => ANext k (set_tlb s (tlb_inval v ipa size (s_tlb s)))
  end.

(** Some number of actions *)
Fixpoint acts_n {A} (n : nat) (p : prog A) (s : state) : option (prog A * state) :=
  match n with
  | O => Some (p, s)
  | S k => match act p s with ANext p' s' => acts_n k p' s' | _ => None end
  end.

(** The uninterrupted execution is the execution of all actions *)
Lemma run_act : forall A (p : prog A) s, run p s =
  match act p s with ANext p' s' => run p' s' | AEnd a => Done a s | AWait _ => Deadlock | AFail => Panicked end.
Proof.
  intros A p s. destruct p; cbn [run act]; try reflexivity;
    match goal with |- context [if ?b then _ else _] => destruct b | |- context [match g_mem ?x with _ => _ end] => destruct (g_mem x) end; reflexivity.
Qed.
Lemma run_acts : forall A n (p : prog A) s p' s', acts_n n p s = Some (p', s') -> run p s = run p' s'.
Proof.
  intros A n. induction n as [|n IH]; intros p s p' s' H; cbn [acts_n] in H.
  - inversion H; subst. reflexivity.
  - rewrite run_act. destruct (act p s) as [p1 s1| | |]; try discriminate H. apply IH, H.
Qed.
