(** Model of the functions on memory and strings in lib/libc/src.

    Memory is a partial map from addresses to bytes: an address without a byte is outside of all
    objects, and an access there ends in [Bad].  Pointers do not wrap: an object lies below
    2^64, so that the sums of the code are plain sums; the one place where the code itself
    counts on wrapping, the difference in memmove, is modelled as it is.  Loops without a bound
    take fuel and end in [More] if it is used up.  memset is assembly (aarch64/memset.S) and not
    modelled. *)
From Coq Require Import NArith ZArith Bool.
Local Open Scope N_scope.

Definition mem := N -> option N.
Inductive res (A : Type) : Type :=
| Ok (a : A)   (* the function returns *)
| Bad          (* it has read or written outside of all objects *)
| More.        (* it goes on after the fuel given *)
Arguments Ok {A}. Arguments Bad {A}. Arguments More {A}.

(** *p = b *)
Definition upd (m : mem) (p b : N) : mem := fun x => if x =? p then Some b else m x.
(** *d = *s *)
Definition move1 (m : mem) (d s : N) : res mem :=
  match m s, m d with
  | Some b, Some _ => Ok (upd m d b)
  | _, _ => Bad
  end.

(** lib/libc/src/memcpy.c:9-19 (while (len--) *d++ = *s++) *)
Fixpoint memcpy_loop (len : nat) (m : mem) (d s : N) : res mem :=
  match len with
  | O => Ok m
  | S len =>
      match move1 m d s with
      | Ok m => memcpy_loop len m (d + 1) (s + 1)
      | Bad => Bad
      | More => More
      end
  end.
Definition memcpy (m : mem) (dst src len : N) : res mem := memcpy_loop (N.to_nat len) m dst src.

(** lib/libc/src/memmove.c:30-32 (while (d != end) *--d = *--s) *)
Fixpoint back_loop (fuel : nat) (m : mem) (d s end_ : N) : res mem :=
  if d =? end_ then Ok m
  else match fuel with
       | O => More
       | S fuel =>
           match move1 m (d - 1) (s - 1) with
           | Ok m => back_loop fuel m (d - 1) (s - 1) end_
           | Bad => Bad
           | More => More
           end
       end.
(** lib/libc/src/memmove.c:10-34 *)
Definition memmove (fuel : nat) (m : mem) (dst src len : N) : res mem :=
  if len <=? (dst + 2 ^ 64 - src) mod 2 ^ 64 then memcpy m dst src len   (* 20-23 *)
  else back_loop fuel m (dst + len) (src + len) dst.                     (* 25-33 *)

(** The difference of two bytes, an int *)
Definition diff (a b : N) : Z := (Z.of_N a - Z.of_N b)%Z.

(** lib/libc/src/memcmp.c:9-25 *)
Fixpoint memcmp_loop (len : nat) (m : mem) (s d : N) : res Z :=
  match len with
  | O => Ok 0%Z
  | S len =>
      match m s, m d with
      | Some sc, Some dc => if (diff sc dc =? 0)%Z then memcmp_loop len m (s + 1) (d + 1) else Ok (diff sc dc)
      | _, _ => Bad
      end
  end.
Definition memcmp (m : mem) (s1 s2 len : N) : res Z := memcmp_loop (N.to_nat len) m s1 s2.

(** lib/libc/src/strlen.c:8-17; [n] is cursor - s *)
Fixpoint strlen_loop (fuel : nat) (m : mem) (cursor n : N) : res N :=
  match fuel with
  | O => More
  | S fuel =>
      match m cursor with
      | None => Bad
      | Some b => if b =? 0 then Ok n else strlen_loop fuel m (cursor + 1) (n + 1)
      end
  end.
Definition strlen (fuel : nat) (m : mem) (s : N) : res N := strlen_loop fuel m s 0.

(** lib/libc/src/strnlen.c:30-40; [rest] is maxlen - len *)
Fixpoint strnlen_loop (rest : nat) (m : mem) (s len : N) : res N :=
  match rest with
  | O => Ok len
  | S rest =>
      match m s with
      | None => Bad
      | Some b => if b =? 0 then Ok len else strnlen_loop rest m (s + 1) (len + 1)
      end
  end.
Definition strnlen (m : mem) (s maxlen : N) : res N := strnlen_loop (N.to_nat maxlen) m s 0.

(** lib/libc/src/strcmp.c:39-48 *)
Fixpoint strcmp (fuel : nat) (m : mem) (s1 s2 : N) : res Z :=
  match fuel with
  | O => More
  | S fuel =>
      match m s1, m s2 with
      | Some a, Some b =>
          if a =? b then if a =? 0 then Ok 0%Z else strcmp fuel m (s1 + 1) (s2 + 1)
          else Ok (diff a b)
      | _, _ => Bad
      end
  end.

(** lib/libc/src/strncmp.c:33-50 *)
Fixpoint strncmp_loop (n : nat) (m : mem) (s1 s2 : N) : res Z :=
  match n with
  | O => Ok 0%Z
  | S n =>
      match m s1, m s2 with
      | Some a, Some b =>
          if a =? b then if a =? 0 then Ok 0%Z else strncmp_loop n m (s1 + 1) (s2 + 1)
          else Ok (diff a b)
      | _, _ => Bad
      end
  end.
Definition strncmp (m : mem) (s1 s2 n : N) : res Z := strncmp_loop (N.to_nat n) m s1 s2.

(** lib/libc/src/strchr.c:34-50; NULL is None *)
Fixpoint strchr_loop (fuel : nat) (m : mem) (p c : N) : res (option N) :=
  match fuel with
  | O => More
  | S fuel =>
      match m p with
      | None => Bad
      | Some b => if b =? c then Ok (Some p) else if b =? 0 then Ok None else strchr_loop fuel m (p + 1) c
      end
  end.
Definition strchr (fuel : nat) (m : mem) (p ch : N) : res (option N) := strchr_loop fuel m p (ch mod 2 ^ 8).

(** lib/libc/src/strlcpy.c:35-42 (while (--nleft != 0)): [n] is nleft - 1 before the test.
    Returns nleft after the loop, dst and src *)
Fixpoint strlcpy_loop (n : nat) (m : mem) (dst src : N) : res (mem * nat * N * N) :=
  match n with
  | O => Ok (m, O, dst, src)
  | S n' =>
      match move1 m dst src with
      | Ok m' =>
          match m' dst with                      (* *(dst - 1) after dst++ *)
          | Some b => if b =? 0 then Ok (m', n, dst + 1, src + 1) else strlcpy_loop n' m' (dst + 1) (src + 1)
          | None => Bad
          end
      | Bad => Bad
      | More => More
      end
  end.
(** strlcpy.c:49-51 (while (asterisk src++) ;): src after the loop *)
Fixpoint skip_loop (fuel : nat) (m : mem) (src : N) : res N :=
  match fuel with
  | O => More
  | S fuel =>
      match m src with
      | None => Bad
      | Some b => if b =? 0 then Ok (src + 1) else skip_loop fuel m (src + 1)
      end
  end.
(** lib/libc/src/strlcpy.c:29-55; returns the memory and the number *)
Definition strlcpy (fuel : nat) (m : mem) (dst src dsize : N) : res (mem * N) :=
  match (if dsize =? 0 then Ok (m, O, dst, src) else strlcpy_loop (N.to_nat (dsize - 1)) m dst src) with
  | Ok (m, nleft, d, s) =>
      match nleft with
      | O =>                                     (* 45-52 *)
          match (if dsize =? 0 then Ok m else match m d with Some _ => Ok (upd m d 0) | None => Bad end) with
          | Ok m => match skip_loop fuel m s with Ok s' => Ok (m, s' - src - 1) | Bad => Bad | More => More end
          | Bad => Bad
          | More => More
          end
      | S _ => Ok (m, s - src - 1)
      end
  | Bad => Bad
  | More => More
  end.
