(** What is asked of token signing by EL3, over what is observed at EL3 and in the realms.
    Traces have the latest event first. *)
From Coq Require Import NArith List Bool.
From Verif Require Import El3Sign.
Import ListNotations.
Local Open Scope N_scope.

(** The request for the token that REC [a] makes now: its ticket and hash *)
Fixpoint asked (a : N) (tr : list sev) : option (N * N) :=
  match tr with
  | [] => None
  | EvNew b :: tr => if b =? a then None else asked a tr
  | EvAsk t b h :: tr => if b =? a then Some (t, h) else asked a tr
  | _ :: tr => asked a tr
  end.

(** EL3 answered the request for the token that REC [a] makes now, and that is one for [h] *)
Definition answered (a h : N) (tr : list sev) : Prop :=
  exists t, asked a tr = Some (t, h) /\ In (EvAnswer t a h) tr.

(** No token is started in a REC while a CPU writes an answer to this REC *)
Fixpoint calm (y : ssys) (l : list sop) : bool :=
  match l with
  | [] => true
  | o :: l =>
      match o with
      | STokenInit c => match own y c with Some (_, r) => negb (t_lock (r_ctx r)) | None => true end
      | _ => true
      end &&
      match sstep y o with SOk y' _ => calm y' l | _ => calm y l end
  end.

(** Every signature is fetched by a CPU that runs the REC that asked for it *)
Fixpoint at_home (y : ssys) (l : list sop) : bool :=
  match l with
  | [] => true
  | o :: l =>
      match o with
      | SCopy c => match y_pc y c, y_run y c with PCopy a, Some me => a =? me | _, _ => true end
      | _ => true
      end &&
      match sstep y o with SOk y' _ => at_home y' l | _ => at_home y l end
  end.

(** EL3 never fails to hand out an answer with an error other than "try again" *)
Definition no_pull_error (l : list sop) : Prop := forall c, ~ In (SPull c PullErr) l.
