(** Vocabulary of the statements about several CPUs. *)
From Coq Require Import NArith List Bool Relations.
From Verif Require Import S2tte State Granule Machine Act Conc.
Import ListNotations.
Local Open Scope N_scope.

(** CPU [p] handles command [k] *)
Definition handles (m : conc) (p : N) (k : cmd) : Prop := exists u, k_cpu m p = Some u /\ u_cmd u = k.
(** CPU [p] took the lock of [g] and did not release it since *)
Definition holds (m : conc) (p g : N) : Prop := exists u, k_cpu m p = Some u /\ In g (u_held u).
(** CPU [p] is about to release the lock of [g] *)
Definition releases (m : conc) (p g : N) : Prop :=
  exists u k, k_cpu m p = Some u /\ u_prog u = Unlock g k.
(** CPU [p] wants the lock of [g], which is taken *)
Definition waits (m : conc) (p g : N) : Prop :=
  exists u k, k_cpu m p = Some u /\ u_prog u = Lock g k /\ k_locks m g = true.
(** CPU [p] waits for a lock that CPU [q] holds *)
Definition waits_for (m : conc) (p q : N) : Prop := exists g, waits m p g /\ holds m q g.

Definition is_rec_create (k : cmd) : Prop := match k with KRecCreate _ _ _ _ => True | _ => False end.
Definition is_rec_destroy (k : cmd) : Prop := match k with KRecDestroy _ => True | _ => False end.

(** The executions: any schedule of any commands from a state in which no CPU
    handles a command, with the events that [ok] allows *)
Inductive runs (c : cfg) (ok : conc -> event -> Prop) : conc -> Prop :=
| r_init : forall m, idle m -> runs c ok m
| r_step : forall m e m', runs c ok m -> ok m e -> cstep c m e m' -> runs c ok m'.

(** No RMI_REC_CREATE releases the lock of a granule that it does not hold
    (it can: rec.c:289-295, C24_refuted) *)
Definition tidy (m : conc) (e : event) : Prop :=
  match e with
  | Go p => forall k g, handles m p k -> is_rec_create k -> releases m p g -> holds m p g
  | _ => True
  end.

(** The commands that lock no granule whose address they read in a structure of
    the monitor: only granules named by the host *)
Definition named_only (k : cmd) : Prop :=
  match k with
  | KUnknown | KVersion _ | KFeatures _ | KGranuleDelegate _ _ | KGranuleUndelegate _ _ | KRealmActivate _
  | KRealmCreate _ _ _ | KRecCreate _ _ _ _ | KRecAuxCount _ | KPsciComplete _ _ _ => True
  | _ => False
  end.
(** [p] and [q] handle such commands and [p] waits for [q] *)
Definition named_waits (m : conc) (p q : N) : Prop :=
  (exists k, handles m p k /\ named_only k) /\ (exists k, handles m q k /\ named_only k) /\ waits_for m p q.

(** A schedule with the states it starts and ends in *)
Inductive history (c : cfg) : conc -> list event -> conc -> Prop :=
| h_nil : forall m, history c m [] m
| h_cons : forall m e m1 l m', cstep c m e m1 -> history c m1 l m' -> history c m (e :: l) m'.

(** The state when the monitor starts (Machine.v [init]) *)
Definition boot (mem : N -> N -> N) : conc :=
  mkC (fun _ => false) (fun a => mkG NS 0 (CW (mem a))) (fun _ => false) [] (fun _ => None).
