(** What is asked of EL3 and of RMM at the start of attestation. *)
From Coq Require Import NArith ZArith List Bool.
From Verif Require Import PlatToken.
Import ListNotations.
Local Open Scope N_scope.

Definition len (l : list N) : N := N.of_nat (length l).
(** EL3 says that it is busy: E_RMM_AGAIN, in 32 or in 64 bits *)
Definition busy (a : ans) : bool := (a0 a =? 2 ^ 64 - 6) || (a0 a =? 2 ^ 32 - 6).
(** EL3, asked with what is in [b], hands out the token T: it may be busy, then leaves the
    buffer as it is, and gives T in pieces that fit the buffer, each with the number of bytes
    that are left; before version 0.3 in one piece *)
Fixpoint serves (old : bool) (T : list N) (b : buf) (answers : list ans) : Prop :=
  match answers with
  | [] => False
  | a :: rest =>
      (busy a = true /\ (forall i, abuf a i = b i) /\ serves old T b rest) \/
      exists h t, T = h ++ t /\ h <> [] /\ len h <= 4096 /\ a0 a = 0 /\ a1 a = len h /\
        (if old then t = [] else a2 a = len t) /\
        (forall i, i < len h -> abuf a i = nth (N.to_nat i) h 0) /\
        (t <> [] -> serves old t (abuf a) rest)
  end.
(** How often EL3 is busy at first *)
Fixpoint busy_first (answers : list ans) : nat :=
  match answers with
  | a :: rest => if busy a then S (busy_first rest) else O
  | [] => O
  end.
(** The pieces that EL3 hands out, up to the one after which nothing is left *)
Fixpoint delivered (old : bool) (answers : list ans) : list N :=
  match answers with
  | [] => []
  | a :: rest =>
      if a0 a =? 0 then bytes (abuf a) (a1 a) ++ if (if old then 0 else a2 a) =? 0 then [] else delivered old rest
      else delivered old rest
  end.
(** An answer with which EL3 does not lie about sizes, and a status that is not 0 is not 0 as an int *)
Definition sane (a : ans) : Prop :=
  if a0 a =? 0 then 0 < a1 a <= 4096 /\ a2 a < 2 ^ 63 else a0 a mod 2 ^ 32 <> 0.

(** Boot code that calls the functions in any order, with any answers *)
Inductive op := InitKey (a : ans) | SetupToken (answers : list ans).
Definition step (c : crypto) (el3 old : bool) (cap : N) (s : state) (o : op) : outcome :=
  match o with
  | InitKey a => init_key c el3 a s
  | SetupToken l => setup_token old cap l s
  end.
(** States after some of them returned *)
Inductive reach (c : crypto) (el3 old : bool) (cap : N) : state -> Prop :=
| reach_init : reach c el3 old cap init
| reach_step : forall s o r s' l, reach c el3 old cap s ->
    step c el3 old cap s o = Ret r s' l -> reach c el3 old cap s'.
