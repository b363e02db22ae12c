(** Model of the stack unwinder used when the monitor crashes (lib/debug/src/backtrace.c).

    Memory is a function from addresses to 64-bit words, of which only those at multiples of 8 are
    read, and a predicate that says which byte addresses the current translation can read.  A load
    from an address that is not a multiple of 8 or that has a byte that cannot be read is a fault,
    which would take the monitor back into its crash handler. *)
From Coq Require Import NArith List Bool.
Import ListNotations.
Local Open Scope N_scope.

Record memory := mkMem { word : N -> N; readable : N -> bool }.
Inductive line := Corrupted (fp : N) | Site (a : N) | MaxDepth.
Inductive result := Fault | Lines (l : list line).

(** backtrace.c:15 *)
Definition UNWIND_LIMIT : nat := 20.
(** sizeof(struct frame_record), backtrace.c:25-30 *)
Definition FRAME_SIZE := 16.

(** A load of 8 bytes *)
Fixpoint all_readable (m : memory) (a : N) (n : nat) : bool :=
  match n with
  | O => true
  | S n => readable m a && all_readable m ((a + 1) mod 2 ^ 64) n
  end.
Definition load (m : memory) (a : N) : option N :=
  if (a mod 8 =? 0) && all_readable m a 8 then Some (word m a) else None.

(** backtrace.c:60-81: the loop over the bytes is [all_readable] *)
Definition is_valid_object (m : memory) (a size : N) : bool :=
  if (a =? 0) || ((a + size) mod 2 ^ 64 <? a) then false
  else if negb (N.land a 7 =? 0) then false
  else all_readable m a (N.to_nat size).
(** backtrace.c:87-95 *)
Definition is_valid_jump_address (m : memory) (a : N) : bool :=
  if (a =? 0) || negb (N.land a 3 =? 0) then false else readable m a.
(** backtrace.c:100-103 *)
Definition is_valid_frame_record (m : memory) (fp : N) : bool := is_valid_object m fp FRAME_SIZE.

(** backtrace.c:105-143; [xpaci] removes the authentication code from an address *)
Fixpoint unwind (m : memory) (xpaci : N -> N) (n : nat) (fp : N) : result :=
  match n with
  | O => Lines [MaxDepth]
  | S n =>
      if negb (is_valid_frame_record m fp) then Lines []
      else
        match load m (fp + 8) with
        | None => Fault
        | Some ret =>
            let call_site := (xpaci ret + 2 ^ 64 - 4) mod 2 ^ 64 in
            if negb (is_valid_jump_address m call_site) then Lines []
            else
              match load m fp with
              | None => Fault
              | Some parent =>
                  match unwind m xpaci n parent with
                  | Fault => Fault
                  | Lines l => Lines (Site call_site :: l)
                  end
              end
        end
  end.
Definition backtrace (m : memory) (xpaci : N -> N) (fp : N) : result :=
  if negb (is_valid_frame_record m fp) then Lines [Corrupted fp]
  else unwind m xpaci UNWIND_LIMIT fp.
