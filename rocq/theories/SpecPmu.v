(** What is asked of the switch of the performance counters *)
From Coq Require Import NArith List Bool.
From Verif Require Import Pmu.
Import ListNotations.
Local Open Scope N_scope.

(** All bits of a are bits of b *)
Definition within (a b : N) : Prop := forall i, N.testbit a i = true -> N.testbit b i = true.
(** A CPU as the architecture allows it: at most 31 event counters, masks of 33 bits *)
Definition cpu_ok (c : pmu_cpu) : Prop :=
  c_n c <= 31 /\ within (c_mask c) (2 ^ 33 - 1) /\ forall s k, c_x c s = XCntr k -> k < c_n c.
(** A state that the registers of the CPU can be in *)
Definition hw_ok (c : pmu_cpu) (h : pmu_hw) : Prop :=
  within (h_cnten h) (c_mask c) /\ within (h_inten h) (c_mask c) /\ within (h_ovs h) (c_mask c) /\
  N.testbit (h_pmcr h) 1 = false /\ N.testbit (h_pmcr h) 2 = false.

(** The same values in all registers, of the counters below [num] only *)
Definition same_below (num : N) (h h' : pmu_hw) : Prop :=
  h_pmcr h' = h_pmcr h /\ h_ccfiltr h' = h_ccfiltr h /\ h_ccntr h' = h_ccntr h /\
  h_cnten h' = h_cnten h /\ h_inten h' = h_inten h /\ h_ovs h' = h_ovs h /\
  h_selr h' = h_selr h /\ h_userenr h' = h_userenr h /\
  forall k, k < num -> h_cntr h' k = h_cntr h k /\ h_typer h' k = h_typer h k.
Definition same_above (num : N) (h h' : pmu_hw) : Prop :=
  forall k, num <= k -> h_cntr h' k = h_cntr h k /\ h_typer h' k = h_typer h k.

(** A CPU with a host and any number of RECs. The host changes its registers; a REC is created
    with some number of counters; a REC runs and the realm does something. *)
Record psys := mkPsys { y_hw : pmu_hw; y_rec : N -> option prec }.
Inductive pop := PHost (h : pmu_hw) | PNew (id num : N) | PRun (id : N) (ns : pmu_state) (acts : list racc).
Definition pstep (c : pmu_cpu) (y : psys) (o : pop) : option psys :=
  match o with
  | PHost h => Some (mkPsys h (y_rec y))
  | PNew id num => Some (mkPsys (y_hw y) (fun i => if i =? id then Some (rec_new num) else y_rec y i))
  | PRun id ns acts =>
      match y_rec y id with
      | Some r => match pmu_run c (y_hw y) ns r acts with
                  | Some (h, r', _) => Some (mkPsys h (fun i => if i =? id then Some r' else y_rec y i))
                  | None => None
                  end
      | None => Some y
      end
  end.
Fixpoint psteps (c : pmu_cpu) (y : psys) (l : list pop) : option psys :=
  match l with [] => Some y | o :: l => match pstep c y o with Some y => psteps c y l | None => None end end.
(** The host only puts values into registers that they can have, and realms have at most as
    many counters as there are (realm.c:283) *)
Definition pop_ok (c : pmu_cpu) (o : pop) : Prop :=
  match o with PHost h => hw_ok c h | PNew _ num => num <= c_n c | PRun _ _ _ => True end.
Definition pmu_reaches (c : pmu_cpu) (h0 : pmu_hw) (y : psys) : Prop :=
  hw_ok c h0 /\ exists l, Forall (pop_ok c) l /\ psteps c (mkPsys h0 (fun _ => None)) l = Some y.

(** The counter that a realm has selected is one of its own, or all counters are *)
Definition own_selected (c : pmu_cpu) (r : prec) : Prop := N.land (s_selr (q_state r)) 31 < q_num r \/ q_num r = c_n c.
(** An overflow of one of the realm's counters, enabled, with enabled interrupt *)
Definition realm_overflow (num : N) (h : pmu_hw) : Prop :=
  N.testbit (h_pmcr h) 0 = true /\
  exists k, (k < num \/ 31 <= k) /\ N.testbit (h_ovs h) k = true /\ N.testbit (h_inten h) k = true /\ N.testbit (h_cnten h) k = true.
