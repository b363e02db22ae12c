(** C78: the stack unwinder of the crash handler. *)
From Coq Require Import NArith List Bool.
From Verif Require Import Backtrace SpecBacktrace BacktraceFacts.
Import ListNotations.
Local Open Scope N_scope.

(** ** Examples: a stack of two calls, one that is a loop, one that leads nowhere.  Bit 55 is an
    authentication code *)
Definition demo_strip (a : N) : N := a mod 2 ^ 48.
Definition demo_mem (parent : N) : memory :=
  mkMem (fun a => if a =? 4096 then 4128 else if a =? 4104 then 2 ^ 55 + 8196 else if a =? 4128 then parent else if a =? 4136 then 8204 else 5)
        (fun a => (4096 <=? a) && (a <? 12288)).
Example demo_words parent : parent < 2 ^ 64 -> forall a, word (demo_mem parent) a < 2 ^ 64.
Proof. intros P a. cbn. destruct (a =? 4096); [reflexivity |]. destruct (a =? 4104); [reflexivity |]. destruct (a =? 4128); [exact P |]. destruct (a =? 4136); reflexivity. Qed.
Example demo_stack : stack (demo_mem 0) demo_strip 4096 [8192; 8200].
Proof.
  assert (R : forall fp, fp = 4096 \/ fp = 4128 -> record_at (demo_mem 0) fp).
  { intros fp H. assert (H1 : fp <> 0 /\ fp mod 8 = 0 /\ fp + 16 < 2 ^ 64) by (destruct H as [-> | ->]; repeat split; discriminate).
    destruct H1 as (A & B & C). repeat split; try assumption. intros i Hi. cbn [demo_mem readable].
    apply andb_true_iff. rewrite N.leb_le, N.ltb_lt.
    assert (fp <= fp + i /\ fp + i < fp + 16) as [K1 K2] by (split; [apply N.le_add_r | apply N.add_lt_mono_l, Hi]).
    split; [apply N.le_trans with fp; [destruct H as [-> | ->]; discriminate | exact K1] |].
    apply N.lt_trans with (fp + 16); [exact K2 | destruct H as [-> | ->]; reflexivity]. }
  apply stack_frame; [apply R; auto | repeat split; discriminate | reflexivity | reflexivity |].
  apply stack_frame; [apply R; auto | repeat split; discriminate | reflexivity | reflexivity |]. apply stack_end.
Qed.
Example demo_out : backtrace (demo_mem 0) demo_strip 4096 = Lines [Site 8192; Site 8200] /\
  backtrace (demo_mem 4096) demo_strip 4096 = Lines (flat_map (fun _ => [Site 8192; Site 8200]) (repeat tt 10) ++ [MaxDepth]) /\
  backtrace (demo_mem 4097) demo_strip 4096 = Lines [Site 8192; Site 8200] /\
  backtrace (demo_mem 0) demo_strip (2 ^ 64 - 8) = Lines [Corrupted (2 ^ 64 - 8)] /\
  load (demo_mem 0) 0 = None /\ load (demo_mem 0) 4097 = None.
Proof. vm_compute. auto 9. Qed.

(** ** C78 *)
(** Whatever is in memory and in the frame pointer, the unwinder ends without a fault, shows at
    most 20 addresses, and only ones an instruction can be read from *)
Theorem backtrace_no_fault : forall m xpaci fp, (forall a, word m a < 2 ^ 64) -> fp < 2 ^ 64 ->
  exists l, backtrace m xpaci fp = Lines l /\ Forall (good m) l /\ (List.length (filter is_site l) <= 20)%nat /\ (List.length l <= 21)%nat.
Proof. exact backtrace_safe. Qed.
Example backtrace_no_fault_met : exists l, backtrace (demo_mem (2 ^ 64 - 16)) demo_strip 4096 = Lines l /\ List.length l = 2%nat.
Proof. eexists. vm_compute. auto. Qed.
(** The calls of an intact stack are shown in order, innermost first, and when there are 20 or
    more, the first 20 and a line that says so *)
Theorem backtrace_shows : forall m xpaci fp l, stack m xpaci fp l -> l <> [] -> backtrace m xpaci fp = Lines (shown 20 l).
Proof. exact backtrace_stack. Qed.
Example backtrace_shows_met : backtrace (demo_mem 0) demo_strip 4096 = Lines (shown 20 [8192; 8200]).
Proof. apply backtrace_shows; [exact demo_stack | discriminate]. Qed.
(** A frame pointer that leads to no record is reported, and only such a one *)
Theorem backtrace_corrupted : forall m xpaci fp, fp < 2 ^ 64 -> (backtrace m xpaci fp = Lines [Corrupted fp] <-> ~ record_at m fp).
Proof. exact backtrace_bad. Qed.
Example backtrace_corrupted_met : ~ record_at (demo_mem 0) 4097.
Proof. apply backtrace_corrupted with (xpaci := demo_strip); [reflexivity |]. vm_compute. reflexivity. Qed.

Definition backtrace_theorems := (@backtrace_no_fault, @backtrace_shows, @backtrace_corrupted).
Print Assumptions backtrace_theorems.
