(** The 16-bit granule descriptor: lock, state and reference count in one word that
    several CPUs access with atomic instructions. *)
From Coq Require Import NArith ZArith List Bool.
Import ListNotations.
Local Open Scope N_scope.

(** lib/granule/include/granule_types.h:244-256 *)
Definition GRN_LOCK_BIT : N := N.shiftl 1 15.
Definition STATE_MASK : N := N.shiftl (N.ones 5) 10.
Definition REFCOUNT_MASK : N := N.ones 10.
Definition REFCOUNT_MAX : N := N.shiftl 1 10 - 1.

(** Code that accesses one descriptor.  Each constructor other than [MRet] and [MFail]
    is one single-copy atomic access: a read (lib/arch/include/aarch64/memory.h:80-112), and
    the read-modify-write instructions ldset, stclr, ldeor and ldadd
    (granule_lock.h:18-47, lib/arch/include/aarch64/atomics.h:85-100, 115-135, 231-249).
    [MFail] is a failed assertion. *)
Inductive mp (A : Type) :=
| MRet (a : A)
| MFail
| MRead (k : N -> mp A)
| MLdSet (mask : N) (k : N -> mp A)
| MStClr (mask : N) (k : mp A)
| MLdEor (v : N) (k : N -> mp A)
| MLdAdd (v : N) (k : N -> mp A).
Arguments MRet {A}. Arguments MFail {A}. Arguments MRead {A}. Arguments MLdSet {A}. Arguments MStClr {A}.
Arguments MLdEor {A}. Arguments MLdAdd {A}.

(** granule.h:29-36 *)
Definition LOCKED (d : N) : bool := negb (N.land d GRN_LOCK_BIT =? 0).
Definition REFCOUNT (d : N) : N := N.land d REFCOUNT_MASK.
Definition STATE (d : N) : N := N.shiftr (N.land d STATE_MASK) 10.
Definition u16 (x : N) : N := x mod 65536.

(** assert(LOCKED(g)) reads the descriptor *)
Definition assert_locked {A} (k : mp A) : mp A := MRead (fun d => if LOCKED d then k else MFail).

(** The functions yield [Some] result, or [None] to start again. *)
(** granule_lock.h:11-33: ldset; if the bit was set, read once more and (with or without
    waiting) start again *)
Definition granule_bitlock_acquire : mp (option N) :=
  MLdSet GRN_LOCK_BIT (fun tmp => if negb (LOCKED tmp) then MRet (Some 0) else MRead (fun _ => MRet None)).
(** granule_lock.h:35-47 *)
Definition granule_bitlock_release : mp (option N) := MStClr GRN_LOCK_BIT (MRet (Some 0)).
(** granule.h:41-45, 52-56 *)
Definition granule_refcount_read : mp (option N) := MRead (fun d => MRet (Some (REFCOUNT d))).
Definition granule_refcount_read_acquire : mp (option N) := assert_locked (MRead (fun d => MRet (Some (REFCOUNT d)))).
(** granule.h:127-133, 136-142 *)
Definition granule_unlocked_state : mp (option N) := MRead (fun d => MRet (Some (STATE d))).
Definition granule_get_state : mp (option N) := assert_locked (MRead (fun d => MRet (Some (STATE d)))).
(** granule.h:145-163: a plain read, then the eor *)
Definition granule_set_state (state : N) : mp (option N) :=
  assert_locked (MRead (fun d =>
    let val := N.lxor (N.land d STATE_MASK) (u16 (N.shiftl state 10)) in
    MLdEor val (fun _ => MRet (Some 0)))).
(** granule.h:236-243 *)
Definition granule_refcount_inc (val : N) : mp (option N) :=
  assert_locked (MLdAdd val (fun old => if REFCOUNT old + val <=? REFCOUNT_MAX then MRet (Some 0) else MFail)).
(** granule.h:260-270 *)
Definition granule_refcount_dec (val : N) : mp (option N) :=
  assert_locked (MLdAdd (u16 (65536 - val)) (fun old => if val <=? REFCOUNT old then MRet (Some 0) else MFail)).
(** granule.h:286-294 *)
Definition atomic_granule_put_release : mp (option N) :=
  MLdAdd 65535 (fun old => if negb (REFCOUNT old =? 0) then MRet (Some 0) else MFail).

(** The functions of granule.h that access the descriptor.  The values passed for states
    and counts are below 32 and 2^16. *)
Inductive gcall :=
| GAcquire | GRelease | GRead | GReadAcquire | GUnlockedState | GState
| GSetState (state : N) | GInc (val : N) | GDec (val : N) | GPutRelease.
Definition gcall_prog (f : gcall) : mp (option N) :=
  match f with
  | GAcquire => granule_bitlock_acquire
  | GRelease => granule_bitlock_release
  | GRead => granule_refcount_read
  | GReadAcquire => granule_refcount_read_acquire
  | GUnlockedState => granule_unlocked_state
  | GState => granule_get_state
  | GSetState s => granule_set_state s
  | GInc n => granule_refcount_inc n
  | GDec n => granule_refcount_dec n
  | GPutRelease => atomic_granule_put_release
  end.

(** One access *)
Definition access {A} (d : N) (p : mp A) : N * mp A :=
  match p with
  | MRet a => (d, MRet a)
  | MFail => (d, MFail)
  | MRead k => (d, k d)
  | MLdSet m k => (N.lor d m, k d)
  | MStClr m k => (N.ldiff d m, k)
  | MLdEor v k => (N.lxor d v, k d)
  | MLdAdd v k => (u16 (d + v), k d)
  end.

(** CPUs that share the descriptor: [c_th p] is the function that CPU [p] is in and what
    is left of it, [c_log] the functions that have returned, the last one first *)
Record conf := mkConf { c_word : N; c_th : N -> option (gcall * mp (option N)); c_log : list (N * gcall * N) }.
Inductive move := Start (p : N) (f : gcall) | Access (p : N).
Inductive moved := Moved (x : conf) | Failed (p : N) (f : gcall) (x : conf) | NoMove.
Definition set_th (x : conf) (p : N) (t : option (gcall * mp (option N))) : N -> option (gcall * mp (option N)) :=
  fun q => if q =? p then t else c_th x q.
Definition take (x : conf) (mv : move) : moved :=
  match mv with
  | Start p f =>
      match c_th x p with
      | Some _ => NoMove
      | None => Moved (mkConf (c_word x) (set_th x p (Some (f, gcall_prog f))) (c_log x))
      end
  | Access p =>
      match c_th x p with
      | None => NoMove
      | Some (f, k) =>
          let '(d, k') := access (c_word x) k in
          match k' with
          | MRet (Some r) => Moved (mkConf d (set_th x p None) ((p, f, r) :: c_log x))
          | MRet None => Moved (mkConf d (set_th x p (Some (f, gcall_prog f))) (c_log x))
          | MFail => Failed p f (mkConf d (set_th x p None) (c_log x))
          | _ => Moved (mkConf d (set_th x p (Some (f, k'))) (c_log x))
          end
      end
  end.
