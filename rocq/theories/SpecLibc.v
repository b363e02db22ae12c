(** What is asked of the functions on memory and strings (C standard, 7.24, and the manual of
    strlcpy), independent of how they are made. *)
From Coq Require Import NArith ZArith List Bool.
From Verif Require Import Libc.
Import ListNotations.
Local Open Scope N_scope.

Definition len (l : list N) : N := N.of_nat (length l).
(** The bytes l are at p *)
Definition holds (m : mem) (p : N) (l : list N) : Prop :=
  forall i, i < len l -> m (p + i) = Some (nth (N.to_nat i) l 0).
(** There is an object in the n bytes at p *)
Definition object (m : mem) (p n : N) : Prop := forall i, i < n -> m (p + i) <> None.
(** The string l is at p: its bytes, none of which is NUL, then NUL *)
Definition string_at (m : mem) (p : N) (l : list N) : Prop :=
  Forall (fun b => b <> 0) l /\ holds m p (l ++ [0]).
(** What a function that looks at no more than n bytes sees of a string is l: it needs no NUL
    if there are n bytes before it *)
Definition string_in (m : mem) (p n : N) (l : list N) : Prop :=
  Forall (fun b => b <> 0) l /\ holds m p l /\ (len l = n \/ len l < n /\ m (p + len l) = Some 0).
(** m' is m with the n bytes at src, as they are in m, put to dst *)
Definition copied (m m' : mem) (dst src n : N) : Prop :=
  forall x, m' x = if (dst <=? x) && (x <? dst + n) then m (src + (x - dst)) else m x.
(** The order of the dictionary *)
Fixpoint lex (a b : list N) : comparison :=
  match a, b with
  | [], [] => Eq
  | [], _ => Lt
  | _, [] => Gt
  | x :: a, y :: b => match x ?= y with Eq => lex a b | c => c end
  end.
(** The place of the first c *)
Fixpoint first_of (c : N) (l : list N) : option N :=
  match l with
  | [] => None
  | x :: l => if x =? c then Some 0 else option_map N.succ (first_of c l)
  end.
