(** Model of the pointer authentication keys (lib/arch/src/pauth.c) and of their switch in
    runtime/core/run.c:rec_run_loop, on any number of CPUs.

    The registers are banked per CPU and a REC runs on one CPU at a time (C17,
    proved for the whole monitor), so that one step is one function; steps of the CPUs interleave
    freely. *)
From Coq Require Import NArith List Bool.
Import ListNotations.
Local Open Scope N_scope.

(** struct pauth_state (lib/arch/include/pauth.h:11-22), and the key registers of a CPU *)
Record keys := mkKeys { ialo : N; iahi : N; iblo : N; ibhi : N; dalo : N; dahi : N; dblo : N; dbhi : N; galo : N; gahi : N }.
Definition zero_keys : keys := mkKeys 0 0 0 0 0 0 0 0 0 0.

(** What a CPU does: it is off, runs RMM (or the host, or EL3), runs RMM inside of the run loop of
    a REC, or runs the realm *)
Inductive mode := Off | Rmm | Loop (r : N) | Realm (r : N).
(** Registers, g_rmm_pauth_apia of this CPU, HCR_EL2 and SCTLR_EL2 *)
Record cpu := mkCpu { c_mode : mode; c_keys : keys; c_apia : N; c_hcr : N; c_sctlr : N }.
(** CPUs; RECs with their saved keys and the CPU that runs them *)
Record state := mkState { cpus : N -> cpu; recs : N -> keys; owner : N -> option N }.
Definition upd {A} (f : N -> A) (i : N) (v : A) (j : N) : A := if i =? j then v else f j.

(** lib/arch/include/arch.h:154-155, 771 *)
Definition HCR_API := 2 ^ 41.
Definition HCR_APK := 2 ^ 40.
Definition SCTLR_EnIA := 2 ^ 31.

(** pauth.c:27-31: arch_collect_entropy until it succeeds; the source is a list of answers, None
    for a failure *)
Fixpoint collect (l : list (option N)) : option (N * list (option N)) :=
  match l with
  | [] => None
  | None :: l => collect l
  | Some v :: l => Some (v, l)
  end.

(** pauth.c:50-57 *)
Definition restore_rmm_keys (c : cpu) : cpu :=
  let k := c_keys c in
  mkCpu (c_mode c)
    (mkKeys (c_apia c mod 2 ^ 64) (N.shiftr (c_apia c) 64 mod 2 ^ 64) (iblo k) (ibhi k) (dalo k) (dahi k) (dblo k) (dbhi k) (galo k) (gahi k))
    (c_apia c) (c_hcr c) (c_sctlr c).
(** pauth.c:21-48 *)
Definition init_enable (rnd : list (option N)) (c : cpu) : option cpu :=
  match collect rnd with
  | None => None
  | Some (low, rnd) =>
      match collect rnd with
      | None => None
      | Some (high, _) =>
          let apia := N.lor (N.shiftl high 64) low in
          let c := mkCpu (c_mode c) (c_keys c) apia (N.lor (N.lor (c_hcr c) HCR_API) HCR_APK) (c_sctlr c) in
          let c := restore_rmm_keys c in
          Some (mkCpu (c_mode c) (c_keys c) (c_apia c) (c_hcr c) (N.lor (c_sctlr c) SCTLR_EnIA))
      end
  end.
(** pauth.c:59-72: the registers after the call *)
Definition restore_realm_keys (p : keys) (_ : keys) : keys :=
  mkKeys (ialo p) (iahi p) (iblo p) (ibhi p) (dalo p) (dahi p) (dblo p) (dbhi p) (galo p) (gahi p).
(** pauth.c:74-86: the structure after the call *)
Definition save_realm_keys (h : keys) (_ : keys) : keys :=
  mkKeys (ialo h) (iahi h) (iblo h) (ibhi h) (dalo h) (dahi h) (dblo h) (dbhi h) (galo h) (gahi h).

(** What happens:
    Boot: cold or warm boot of a CPU (runtime/core/aarch64/head.S:138-160);
    Down: the CPU is powered off by the host;
    Host: the host and EL3 run; EL3 keeps the instruction key A of RMM, nothing is assumed on the others;
    Create: RMI_REC_CREATE of a REC that does not run, in a granule of zeros (runtime/rmi/rec.c:150-153);
    Enter: rec_run_loop starts (run.c:259-292);
    Run: run.c:319, then the realm runs; Write: the realm writes its keys;
    Exit: the realm is left, run.c:324-327; Leave: rec_run_loop ends *)
Inductive op :=
| Boot (c : N) (rnd : list (option N))
| Down (c : N)
| Host (c : N) (k : keys)
| Create (r : N)
| Enter (c r : N)
| Run (c r : N)
| Write (c r : N) (k : keys)
| Exit (c r : N)
| Leave (c r : N).
Definition set_cpu (s : state) (c : N) (x : cpu) : state := mkState (upd (cpus s) c x) (recs s) (owner s).
Definition with_mode (m : mode) (x : cpu) : cpu := mkCpu m (c_keys x) (c_apia x) (c_hcr x) (c_sctlr x).
Definition with_keys (k : keys) (x : cpu) : cpu := mkCpu (c_mode x) k (c_apia x) (c_hcr x) (c_sctlr x).
(** None: cannot happen *)
Definition step (s : state) (o : op) : option state :=
  match o with
  | Boot c rnd =>
      match c_mode (cpus s c), init_enable rnd (cpus s c) with
      | Off, Some x => Some (set_cpu s c (with_mode Rmm x))
      | _, _ => None
      end
  | Down c => match c_mode (cpus s c) with Rmm => Some (set_cpu s c (with_mode Off (cpus s c))) | _ => None end
  | Host c k =>
      let h := c_keys (cpus s c) in
      match c_mode (cpus s c) with
      | Rmm => Some (set_cpu s c (with_keys (mkKeys (ialo h) (iahi h) (iblo k) (ibhi k) (dalo k) (dahi k) (dblo k) (dbhi k) (galo k) (gahi k)) (cpus s c)))
      | Off => Some (set_cpu s c (with_keys k (cpus s c)))
      | _ => None
      end
  | Create r => match owner s r with None => Some (mkState (cpus s) (upd (recs s) r zero_keys) (owner s)) | Some _ => None end
  | Enter c r =>
      match c_mode (cpus s c), owner s r with
      | Rmm, None => Some (mkState (upd (cpus s) c (with_mode (Loop r) (cpus s c))) (recs s) (upd (owner s) r (Some c)))
      | _, _ => None
      end
  | Run c r =>
      match c_mode (cpus s c) with
      | Loop r' => if r =? r' then Some (set_cpu s c (with_mode (Realm r) (with_keys (restore_realm_keys (recs s r) (c_keys (cpus s c))) (cpus s c)))) else None
      | _ => None
      end
  | Write c r k =>
      match c_mode (cpus s c) with
      | Realm r' => if r =? r' then Some (set_cpu s c (with_keys k (cpus s c))) else None
      | _ => None
      end
  | Exit c r =>
      match c_mode (cpus s c) with
      | Realm r' =>
          if r =? r' then
            Some (mkState (upd (cpus s) c (with_mode (Loop r) (restore_rmm_keys (cpus s c))))
                          (upd (recs s) r (save_realm_keys (c_keys (cpus s c)) (recs s r))) (owner s))
          else None
      | _ => None
      end
  | Leave c r =>
      match c_mode (cpus s c) with
      | Loop r' => if r =? r' then Some (mkState (upd (cpus s) c (with_mode Rmm (cpus s c))) (recs s) (upd (owner s) r None)) else None
      | _ => None
      end
  end.
(** All CPUs off, with any registers; no REC yet, memory with anything in it *)
Definition start (h : N -> keys) (hcr sctlr : N -> N) (m : N -> keys) : state :=
  mkState (fun c => mkCpu Off (h c) 0 (hcr c) (sctlr c)) m (fun _ => None).
Fixpoint run (s : state) (ops : list op) : option state :=
  match ops with
  | [] => Some s
  | o :: ops => match step s o with Some s => run s ops | None => None end
  end.
