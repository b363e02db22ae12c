(** C77: pointer authentication keys of the monitor and of realms. *)
From Coq Require Import NArith List Bool.
From Verif Require Import Pauth SpecPauth PauthFacts.
Import ListNotations.
Local Open Scope N_scope.

(** ** An example: REC 7 runs on CPU 0 and then on CPU 1, REC 8 on CPU 0 *)
Definition demo_keys : keys := mkKeys 1 2 3 4 5 6 7 8 9 10.
Definition demo_keys' : keys := mkKeys 11 12 13 14 15 16 17 18 19 20.
Definition demo_start : state := start (fun c => mkKeys c c c c c c c c c c) (fun _ => 2 ^ 31) (fun _ => 1) (fun _ => demo_keys').
Definition demo_ops : list op :=
  [Boot 0 [None; Some 100; None; None; Some 101]; Boot 1 [Some 200; Some 201; Some 202]; Create 7; Create 8;
   Enter 0 7; Run 0 7; Write 0 7 demo_keys; Exit 0 7; Leave 0 7; Host 0 demo_keys';
   Enter 0 8; Run 0 8; Enter 1 7; Write 0 8 demo_keys'; Run 1 7; Exit 0 8].
Example demo_run : Forall wf_op demo_ops /\ match run demo_start demo_ops with
  | Some s => c_mode (cpus s 1) = Realm 7 /\ c_keys (cpus s 1) = demo_keys /\ c_mode (cpus s 0) = Loop 8 /\
              ialo (c_keys (cpus s 0)) = 100 /\ iahi (c_keys (cpus s 0)) = 101 /\ iblo (c_keys (cpus s 0)) = 13
  | None => False
  end.
Proof. split; [repeat constructor | vm_compute; auto 9]. Qed.

(** ** C77 *)
(** A realm finds in the ten registers what it wrote last, on whatever CPU, or zeros if it did not
    write any; host, RMM, entropy and other realms have no part in it *)
Theorem pauth_realm_keys : forall h hcr sctlr m ops s c r, Forall wf_op ops -> run (start h hcr sctlr m) ops = Some s ->
  c_mode (cpus s c) = Realm r -> c_keys (cpus s c) = left_by ops (m r) r.
Proof. exact realm_keys. Qed.
(** RMM runs with the key drawn at the last boot of its CPU, with authentication enabled *)
Theorem pauth_rmm_keys : forall h hcr sctlr m ops s c, Forall wf_op ops -> run (start h hcr sctlr m) ops = Some s ->
  c_mode (cpus s c) = Rmm \/ (exists r, c_mode (cpus s c) = Loop r) ->
  (ialo (c_keys (cpus s c)), iahi (c_keys (cpus s c))) = drawn ops (0, 0) c /\ N.testbit (c_sctlr (cpus s c)) 31 = true.
Proof. exact rmm_keys. Qed.
(** Boot ends as soon as the source has given two values, failures in between or not, and adds
    three bits to the two control registers *)
Theorem pauth_boot_ok : forall rnd c, (init_enable rnd c <> None <-> (2 <= List.length (values rnd))%nat) /\
  forall c', Forall (fun v => v < 2 ^ 64) (values rnd) -> init_enable rnd c = Some c' ->
    exists low high rest, values rnd = low :: high :: rest /\ ialo (c_keys c') = low /\ iahi (c_keys c') = high /\
      c_sctlr c' = N.lor (c_sctlr c) (2 ^ 31) /\ c_hcr c' = N.lor (N.lor (c_hcr c) (2 ^ 41)) (2 ^ 40).
Proof.
  intros rnd c. split; [apply init_some |]. intros c' F E.
  destruct (init_ok _ _ _ F E) as (lo & hi & l & V & A & B & _ & _ & S & H). exists lo, hi, l. auto 6.
Qed.
Example pauth_met : match run demo_start demo_ops with
  | Some s => c_keys (cpus s 1) = left_by demo_ops demo_keys' 7 /\ left_by demo_ops demo_keys' 7 = demo_keys /\
              (ialo (c_keys (cpus s 0)), iahi (c_keys (cpus s 0))) = drawn demo_ops (0, 0) 0 /\ drawn demo_ops (0, 0) 0 = (100, 101)
  | None => False
  end.
Proof. vm_compute. auto. Qed.

Definition pauth_theorems := (@pauth_realm_keys, @pauth_rmm_keys, @pauth_boot_ok).
Print Assumptions pauth_theorems.
