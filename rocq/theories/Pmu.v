(** The switch of the performance counters between host and realm: lib/arch/src/pmu.c and the
    places that call it, runtime/core/run.c:34,71-97,155-218,282-283,356-357.
    The registers of the hardware are modelled after the Arm ARM (chapter D13 and the
    descriptions of the registers), on one CPU. Simplified: the counters do not count while the
    monitor itself runs. *)
From Coq Require Import NArith List Bool.
Import ListNotations.
Local Open Scope N_scope.

(** The hardware. The three pairs of set/clear registers stand for one mask each. PMCR_EL0
    without its read-only and its write-only bits. *)
Record pmu_hw := mkPmu {
  h_pmcr : N; h_ccfiltr : N; h_ccntr : N;
  h_cnten : N; h_inten : N; h_ovs : N;
  h_selr : N; h_userenr : N;
  h_cntr : N -> N; h_typer : N -> N
}.
(** What PMXEVCNTR_EL0 and PMXEVTYPER_EL0 do when PMSELR_EL0 selects a counter that is not
    there: constrained unpredictable, one of these *)
Inductive xacc := XUndef | XIgnore | XCntr (k : N).
(** The CPU: PMCR_EL0.N, the bits that are there in the masks, and its choice above *)
Record pmu_cpu := mkCpu { c_n : N; c_mask : N; c_x : N -> xacc }.

Definition upd (f : N -> N) (k v : N) : N -> N := fun j => if j =? k then v else f j.
Definition set_cntr (h : pmu_hw) (k v : N) : pmu_hw :=
  mkPmu (h_pmcr h) (h_ccfiltr h) (h_ccntr h) (h_cnten h) (h_inten h) (h_ovs h) (h_selr h) (h_userenr h) (upd (h_cntr h) k v) (h_typer h).
Definition set_typer (h : pmu_hw) (k v : N) : pmu_hw :=
  mkPmu (h_pmcr h) (h_ccfiltr h) (h_ccntr h) (h_cnten h) (h_inten h) (h_ovs h) (h_selr h) (h_userenr h) (h_cntr h) (upd (h_typer h) k v).
Definition set_ccfiltr (h : pmu_hw) (v : N) : pmu_hw :=
  mkPmu (h_pmcr h) v (h_ccntr h) (h_cnten h) (h_inten h) (h_ovs h) (h_selr h) (h_userenr h) (h_cntr h) (h_typer h).
Definition set_ccntr (h : pmu_hw) (v : N) : pmu_hw :=
  mkPmu (h_pmcr h) (h_ccfiltr h) v (h_cnten h) (h_inten h) (h_ovs h) (h_selr h) (h_userenr h) (h_cntr h) (h_typer h).
Definition set_selr (h : pmu_hw) (v : N) : pmu_hw :=
  mkPmu (h_pmcr h) (h_ccfiltr h) (h_ccntr h) (h_cnten h) (h_inten h) (h_ovs h) v (h_userenr h) (h_cntr h) (h_typer h).
Definition set_userenr (h : pmu_hw) (v : N) : pmu_hw :=
  mkPmu (h_pmcr h) (h_ccfiltr h) (h_ccntr h) (h_cnten h) (h_inten h) (h_ovs h) (h_selr h) v (h_cntr h) (h_typer h).
Definition set_masks (h : pmu_hw) (en int ovs : N) : pmu_hw :=
  mkPmu (h_pmcr h) (h_ccfiltr h) (h_ccntr h) en int ovs (h_selr h) (h_userenr h) (h_cntr h) (h_typer h).
(** A write of PMCR_EL0 at EL2: bit P (1) clears all event counters, bit C (2) the cycle counter *)
Definition w_pmcr (h : pmu_hw) (v : N) : pmu_hw :=
  mkPmu (N.ldiff v 6) (h_ccfiltr h) (if N.testbit v 2 then 0 else h_ccntr h) (h_cnten h) (h_inten h) (h_ovs h) (h_selr h) (h_userenr h)
        (if N.testbit v 1 then fun _ => 0 else h_cntr h) (h_typer h).
(** Writes of a set and of a clear register *)
Definition w_set (c : pmu_cpu) (mask v : N) : N := N.lor mask (N.land v (c_mask c)).
Definition w_clr (mask v : N) : N := N.ldiff mask v.
(** PMSELR_EL0.SEL *)
Definition sel (h : pmu_hw) : N := N.land (h_selr h) 31.
Definition r_xcntr (c : pmu_cpu) (h : pmu_hw) : option N :=
  if sel h <? c_n c then Some (h_cntr h (sel h))
  else match c_x c (sel h) with XUndef => None | XIgnore => Some 0 | XCntr k => Some (h_cntr h k) end.
Definition w_xcntr (c : pmu_cpu) (h : pmu_hw) (v : N) : option pmu_hw :=
  if sel h <? c_n c then Some (set_cntr h (sel h) v)
  else match c_x c (sel h) with XUndef => None | XIgnore => Some h | XCntr k => Some (set_cntr h k v) end.
(** SEL = 31 selects PMCCFILTR_EL0 *)
Definition r_xtyper (c : pmu_cpu) (h : pmu_hw) : option N :=
  if sel h =? 31 then Some (h_ccfiltr h)
  else if sel h <? c_n c then Some (h_typer h (sel h))
  else match c_x c (sel h) with XUndef => None | XIgnore => Some 0 | XCntr k => Some (h_typer h k) end.
Definition w_xtyper (c : pmu_cpu) (h : pmu_hw) (v : N) : option pmu_hw :=
  if sel h =? 31 then Some (set_ccfiltr h v)
  else if sel h <? c_n c then Some (set_typer h (sel h) v)
  else match c_x c (sel h) with XUndef => None | XIgnore => Some h | XCntr k => Some (set_typer h k v) end.

(** struct pmu_state, pmu.h:24-40 *)
Record pmu_state := mkPs {
  s_ccfiltr : N; s_ccntr : N; s_cntenset : N; s_cntenclr : N; s_intenset : N; s_intenclr : N;
  s_ovsset : N; s_ovsclr : N; s_selr : N; s_userenr : N; s_xcntr : N; s_xtyper : N;
  s_cntr : N -> N; s_typer : N -> N
}.
(** PMU_CLEAR_ALL, pmu.c:13 *)
Definition CLEAR_ALL := 0x1FFFFFFFF.
(** The counters that the switch statements with their fall-throughs go through, in this order:
    pmu.c:48-84 and 108-144 *)
Fixpoint down (k : nat) : list N := match k with O => [] | S k => N.of_nat k :: down k end.
Definition counters (num : N) : list N := if num =? 0 then [] else if num <=? 31 then down (N.to_nat num) else [0].
(** pmu_save_state, pmu.c:31-85: [old] is what is in the structure. None: an undefined
    instruction in the monitor. *)
Definition pmu_save (c : pmu_cpu) (h : pmu_hw) (num : N) (old : pmu_state) : option pmu_state :=
  match r_xcntr c h, r_xtyper c h with
  | Some xc, Some xt =>
      Some (mkPs (h_ccfiltr h) (h_ccntr h) (h_cnten h) (h_cnten h) (h_inten h) (h_inten h) (h_ovs h) (h_ovs h)
                 (h_selr h) (h_userenr h) xc xt
                 (fold_left (fun f k => upd f k (h_cntr h k)) (counters num) (s_cntr old))
                 (fold_left (fun f k => upd f k (h_typer h k)) (counters num) (s_typer old)))
  | _, _ => None
  end.
(** pmu_restore_state, pmu.c:91-145 *)
Definition pmu_restore (c : pmu_cpu) (h : pmu_hw) (num : N) (s : pmu_state) : option pmu_hw :=
  let h := set_ccntr (set_ccfiltr h (s_ccfiltr s)) (s_ccntr s) in
  let h := set_masks h (w_clr (w_set c (h_cnten h) (s_cntenset s)) (N.lxor (s_cntenclr s) CLEAR_ALL))
                       (w_clr (w_set c (h_inten h) (s_intenset s)) (N.lxor (s_intenclr s) CLEAR_ALL))
                       (w_clr (w_set c (h_ovs h) (s_ovsset s)) (N.lxor (s_ovsclr s) CLEAR_ALL)) in
  let h := set_userenr (set_selr h (s_selr s)) (s_userenr s) in
  match w_xcntr c h (s_xcntr s) with
  | None => None
  | Some h =>
      match w_xtyper c h (s_xtyper s) with
      | None => None
      | Some h => Some (fold_left (fun h k => set_typer (set_cntr h k (s_cntr s k)) k (s_typer s k)) (counters num) h)
      end
  end.
(** pmu_update_rec_exit, pmu.c:150-161 *)
Definition pmu_overflow (h : pmu_hw) : bool :=
  negb (N.land (N.land (h_ovs h) (h_inten h)) (h_cnten h) =? 0) && N.testbit (h_pmcr h) 0.

(** The REC of a realm with PMU: number of counters, PMCR_EL0, saved state. At REC_CREATE,
    rec.c:24-28: init_rec_regs comes before realm_info.pmu_enabled is set (345 and 357), so that
    PMCR_EL0 starts as PMCR_EL0_INIT and never as PMCR_EL0_INIT_RESET. The auxiliary granules
    are zero. *)
Record prec := mkPrec { q_num : N; q_pmcr : N; q_state : pmu_state }.
Definition ps0 : pmu_state := mkPs 0 0 0 0 0 0 0 0 0 0 0 0 (fun _ => 0) (fun _ => 0).
Definition PMCR_INIT := 0x60.
Definition rec_new (num : N) : prec := mkPrec num PMCR_INIT ps0.

(** restore_realm_state: run.c:96, 170-174 *)
Definition enter (c : pmu_cpu) (h : pmu_hw) (r : prec) : option pmu_hw :=
  pmu_restore c (w_pmcr h (q_pmcr r)) (q_num r) (q_state r).
(** save_realm_state: run.c:34, 80-87 *)
Definition leave (c : pmu_cpu) (h : pmu_hw) (r : prec) : option (prec * bool) :=
  match pmu_save c h (q_num r) (q_state r) with
  | Some s => Some (mkPrec (q_num r) (h_pmcr h) s, pmu_overflow h)
  | None => None
  end.

(** What a realm can do at EL1 and EL0 with MDCR_EL2.HPMN = num (rec.c:127-135): registers of
    the counters below num, the bits of these counters and of the fixed counters in the masks,
    and the other registers. PMCR_EL0.P clears the counters below num only. *)
Definition realm_bit (num k : N) : bool := (k <? num) || (31 <=? k).
Fixpoint bits (n : nat) (f : N -> bool) : N :=
  match n with O => 0 | S n => if f (N.of_nat n) then N.setbit (bits n f) (N.of_nat n) else bits n f end.
Definition realm_mask (c : pmu_cpu) (num : N) : N := N.land (c_mask c) (bits 33 (realm_bit num)).
Inductive mreg := Enable | Interrupt | Overflow.
Inductive racc :=
| RCntr (k v : N) | RTyper (k v : N) | RSet (r : mreg) (v : N) | RClr (r : mreg) (v : N)
| RSel (v : N) | RUser (v : N) | RCcntr (v : N) | RCcfiltr (v : N) | RPmcr (v : N)
| RXCntr (v : N) | RXTyper (v : N)
| RCount (k v : N) (o : bool).  (** the hardware counts: k becomes v, maybe with an overflow *)
Definition on_mask (r : mreg) (f : N -> N) (h : pmu_hw) : pmu_hw :=
  match r with
  | Enable => set_masks h (f (h_cnten h)) (h_inten h) (h_ovs h)
  | Interrupt => set_masks h (h_cnten h) (f (h_inten h)) (h_ovs h)
  | Overflow => set_masks h (h_cnten h) (h_inten h) (f (h_ovs h))
  end.
Definition realm_do (c : pmu_cpu) (num : N) (h : pmu_hw) (a : racc) : pmu_hw :=
  match a with
  | RCntr k v => if k <? num then set_cntr h k v else h
  | RTyper k v => if k <? num then set_typer h k v else h
  | RSet r v => on_mask r (fun x => N.lor x (N.land v (realm_mask c num))) h
  | RClr r v => on_mask r (fun x => N.ldiff x (N.land v (realm_mask c num))) h
  | RSel v => set_selr h v
  | RUser v => set_userenr h v
  | RCcntr v => set_ccntr h v
  | RCcfiltr v => set_ccfiltr h v
  | RPmcr v =>
      mkPmu (N.ldiff v 6) (h_ccfiltr h) (if N.testbit v 2 then 0 else h_ccntr h) (h_cnten h) (h_inten h) (h_ovs h) (h_selr h) (h_userenr h)
            (if N.testbit v 1 then fun k => if k <? num then 0 else h_cntr h k else h_cntr h) (h_typer h)
  | RXCntr v => if sel h <? num then set_cntr h (sel h) v else h
  | RXTyper v => if sel h =? 31 then set_ccfiltr h v else if sel h <? num then set_typer h (sel h) v else h
  | RCount k v o =>
      if N.testbit (h_cnten h) k && (k <? c_n c) then
        on_mask Overflow (fun x => if o then N.lor x (N.land (2 ^ k) (c_mask c)) else x) (set_cntr h k v)
      else h
  end.

(** One REC_ENTER: save_ns_state, restore_realm_state, the realm, save_realm_state,
    restore_ns_state. The result: hardware, REC, whether an overflow was reported. [ns] is what
    is in g_ns_data. *)
Definition pmu_run (c : pmu_cpu) (h : pmu_hw) (ns : pmu_state) (r : prec) (acts : list racc) : option (pmu_hw * prec * bool) :=
  match pmu_save c h (q_num r) ns with
  | None => None
  | Some n =>
      match enter c h r with
      | None => None
      | Some h1 =>
          match leave c (fold_left (realm_do c (q_num r)) acts h1) r with
          | None => None
          | Some (r', o) =>
              match pmu_restore c (w_pmcr (fold_left (realm_do c (q_num r)) acts h1) (h_pmcr h)) (q_num r) n with
              | Some h' => Some (h', r', o)
              | None => None
              end
          end
      end
  end.
