(** Theorems about the switch of the performance counters: C66, C67, C68. *)
From Coq Require Import NArith List Bool.
From Verif Require Import Pmu SpecPmu PmuFacts2.
Import ListNotations.
Local Open Scope N_scope.

(** A CPU with 6 counters, on which a selected counter that is not there is ignored, and one on
    which it is an undefined instruction; a host with values in all registers; the host
    enters the REC of a realm with 4 counters twice *)
Definition x_cpu : pmu_cpu := mkCpu 6 0x18000003F (fun _ => XIgnore).
Definition x_cpu' : pmu_cpu := mkCpu 6 0x18000003F (fun _ => XUndef).
Definition x_host : pmu_hw := mkPmu 0x61 0x11 0x222 0x80000033 0x30 0x21 5 0xF (fun k => 100 + k) (fun k => 200 + k).
Definition x_host' : pmu_hw := mkPmu 0x61 0x11 0x333 0x80000033 0x30 0x21 0 0xF (fun k => 500 + k) (fun k => 200 + k).
Definition x_acts (s : N) : list racc :=
  [RPmcr 0x67; RTyper 2 0x8; RSet Enable 0x7FFFFFFFF; RSet Interrupt 0x4; RCount 2 7 true; RCount 5 9 true; RSel s; RXCntr 0x55; RCcntr 0x77].
Definition x_log (c : pmu_cpu) (l : list pop) : option (pmu_hw * option prec) :=
  match psteps c (mkPsys x_host (fun _ => None)) l with Some y => Some (y_hw y, y_rec y 1) | None => None end.
Lemma x_cpu_ok : cpu_ok x_cpu /\ cpu_ok x_cpu' /\ hw_ok x_cpu x_host.
Proof.
  assert (W : forall a b, N.ldiff a b = 0 -> within a b).
  { intros a b H i Hi. destruct (N.testbit b i) eqn:B; [reflexivity|]. exfalso.
    assert (N.testbit (N.ldiff a b) i = true) by (rewrite N.ldiff_spec, Hi, B; reflexivity). rewrite H, N.bits_0 in *. discriminate. }
  unfold cpu_ok, hw_ok. repeat split; try (apply W; reflexivity); discriminate.
Qed.

(** C66: after any history of host and realms, a run of a REC gives the host all its registers
    back, and the counters that the realm shares with it; also the other counters, if the
    counter that the realm selected when it ran last is one of its own. *)
Theorem pmu_host_partial : forall c h0 y id r ns acts h' r' o, cpu_ok c -> pmu_reaches c h0 y -> y_rec y id = Some r ->
  pmu_run c (y_hw y) ns r acts = Some (h', r', o) ->
  same_below (q_num r) (y_hw y) h' /\ (own_selected c r -> same_above (q_num r) (y_hw y) h').
Proof. exact host_kept. Qed.
Example pmu_host_example :
  match x_log x_cpu [PNew 1 4; PRun 1 ps0 (x_acts 3); PHost x_host'] with
  | Some (h, Some r) =>
      match pmu_run x_cpu h ps0 r (x_acts 2) with
      | Some (h', r', o) => (map (h_cntr h') [0; 3; 4; 5], h_cnten h', h_ovs h', h_ccntr h', o, s_cntr (q_state r') 3, s_ccntr (q_state r'))
      | None => ([], 0, 0, 0, false, 0, 0)
      end
  | _ => ([], 0, 0, 0, false, 0, 0)
  end = ([500; 503; 504; 505], 0x80000033, 0x21, 0x333, true, 0, 0x77).
Proof. vm_compute. reflexivity. Qed.
(** F35: a realm with 4 counters selects counter 5 of the host. The next time that it is
    entered, counter 5 goes back from 505 to the value at the end of its last run. *)
Theorem pmu_host_refuted : exists h r h' r' o,
  x_log x_cpu [PNew 1 4; PRun 1 ps0 [RSel 5]; PHost x_host'] = Some (h, Some r) /\ q_num r = 4 /\ h_cntr h 5 = 505 /\
  pmu_run x_cpu h ps0 r [] = Some (h', r', o) /\ h_cntr h' 5 = 105.
Proof. eexists _, _, _, _, _. split; [vm_compute; reflexivity|]. split; [reflexivity|]. split; [reflexivity|]. split; [vm_compute; reflexivity|reflexivity]. Qed.

(** C67: whatever happens in between, at the next entry the realm finds all registers and its
    counters as it left them *)
Theorem pmu_realm_ok : forall c h0 y id r acts h1 r' o h h1', cpu_ok c -> pmu_reaches c h0 y -> y_rec y id = Some r ->
  enter c (y_hw y) r = Some h1 -> leave c (fold_left (realm_do c (q_num r)) acts h1) r = Some (r', o) ->
  hw_ok c h -> enter c h r' = Some h1' -> same_below (q_num r) (fold_left (realm_do c (q_num r)) acts h1) h1'.
Proof. exact realm_kept. Qed.
Example pmu_realm_example :
  match enter x_cpu x_host (rec_new 4) with
  | Some h1 => match leave x_cpu (fold_left (realm_do x_cpu 4) (x_acts 3) h1) (rec_new 4) with
               | Some (r', _) => option_map (fun h => (map (h_cntr h) [0; 1; 2; 3], h_cnten h, h_pmcr h, h_selr h, h_ccntr h)) (enter x_cpu x_host' r')
               | None => None
               end
  | None => None
  end = Some ([0; 0; 7; 0x55], 0x18000000F, 0x61, 3, 0x77).
Proof. vm_compute. reflexivity. Qed.

(** C67: the exit of a REC reports an overflow if and only if one of the realm's own counters
    has overflowed, with the counter and its interrupt enabled *)
Theorem pmu_overflow_ok : forall c h0 y id r acts h1 r' o, cpu_ok c -> pmu_reaches c h0 y -> y_rec y id = Some r ->
  enter c (y_hw y) r = Some h1 -> leave c (fold_left (realm_do c (q_num r)) acts h1) r = Some (r', o) ->
  (o = true <-> realm_overflow (q_num r) (fold_left (realm_do c (q_num r)) acts h1)).
Proof. exact overflow_said. Qed.

(** C68: on CPUs that give some value to a counter that is not there, no history stops the
    monitor *)
Theorem pmu_defined_partial : forall c h0 y id r ns acts, cpu_ok c -> pmu_reaches c h0 y -> y_rec y id = Some r ->
  (forall s, c_x c s <> XUndef) -> exists x, pmu_run c (y_hw y) ns r acts = Some x.
Proof. exact run_defined. Qed.
(** F36: on CPUs on which it is an undefined instruction, as the architecture allows, a realm
    that selects such a counter stops the monitor *)
Theorem pmu_defined_refuted : pmu_run x_cpu' x_host ps0 (rec_new 4) [] <> None /\ pmu_run x_cpu' x_host ps0 (rec_new 4) [RSel 30] = None.
Proof. split; [vm_compute; discriminate|vm_compute; reflexivity]. Qed.
(** A realm that selects one of its counters cannot do this *)
Example pmu_defined_example : match pmu_run x_cpu' x_host ps0 (rec_new 4) (x_acts 3) with Some (_, _, o) => o = true | None => False end.
Proof. vm_compute. reflexivity. Qed.

Definition pmu_theorems := (@pmu_host_partial, @pmu_host_refuted, @pmu_realm_ok, @pmu_overflow_ok, @pmu_defined_partial, @pmu_defined_refuted).
Print Assumptions pmu_theorems.
