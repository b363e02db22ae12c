(** C48: SIMD registers. *)
From Coq Require Import NArith List Bool Lia.
From Verif Require Import Simd SpecSimd SimdFacts SimdInv.
Import ListNotations.
Local Open Scope N_scope.

(** The RMM comes up, and no event, in no order, ends in a failed assertion or makes the
    RMM execute an instruction that traps to itself.  Among the assertions is the one that
    the RMM computes with SIMD registers only while the owner's values are saved. *)
Theorem C48_boot : forall h f, hw_ok h ->
  exists s, sboot h f = Some s /\ forall p, q_cpu s p = set_cptr CPTR_INIT (f p) /\ q_run s p = None.
Proof. intros h f W. destruct (boot_ok h W f) as (s & E & _ & R). eauto. Qed.
Theorem C48_no_panic : forall h s o r, hw_ok h -> sreach h s -> sstep h s o = Some r -> exists s', r = SOk s'.
Proof. intros h s o r W. exact (no_panic h W s o r). Qed.

(** When a call of the host returns, whatever happened on any CPU in the meantime, the
    host finds its registers as they were, except for those it declared dead. *)
Theorem C48_host : forall h p hint r0 s, hw_ok h ->
  away h p hint r0 s -> q_run s p = None -> host_same h hint r0 (q_cpu s p).
Proof. intros h p hint r0 s W. exact (away_host h W p hint r0 s). Qed.
(** Events on other CPUs, and the creation and destruction of RECs, do not touch the
    registers of a CPU. *)
Theorem C48_other_cpus : forall h p s o s', sreach h s -> sstep h s o = Some (SOk s') -> on_cpu o <> Some p ->
  q_cpu s' p = q_cpu s p /\ q_run s' p = q_run s p.
Proof. intros h p s o s' _ E. exact (proj1 (foot_step h s o s' E) p). Qed.

(** Whenever a realm can access SIMD registers at all, they contain what this REC left in
    them, zeros at first, on whichever CPU that was. *)
Theorem C48_realm : forall h i v s p rmm x k, hw_ok h ->
  last_regs h i v s -> q_run s p = Some (i, rmm) -> q_rec s i = Some x -> traps h k (q_cpu s p) = false ->
  realm_same h (r_cfg x) v (q_cpu s p).
Proof. intros h i v s p rmm x k W LR R X T. apply (last_realm h W i v s p rmm x LR R X). eauto. Qed.
Theorem C48_realm_has : forall h s i, hw_ok h -> sreach h s -> q_rec s i <> None -> exists v, last_regs h i v s.
Proof. intros h s i W R. exact (has_last h W s R i). Qed.
(** A realm never accesses SME registers, and SVE registers only if it was created with
    SVE. *)
Theorem C48_realm_access : forall h s p i rmm x, hw_ok h -> sreach h s -> q_run s p = Some (i, rmm) -> q_rec s i = Some x ->
  traps h ASme (q_cpu s p) = true /\
  (traps h ASve (q_cpu s p) = false -> sve_en (r_cfg x) = true /\ traps h AFpu (q_cpu s p) = false).
Proof. intros h s p i rmm x W. exact (realm_traps h W s p i rmm x). Qed.

(** ** A history *)

(** SVE with vectors of up to 512 bits, SME with 256 bits. *)
Definition ex_hw : simd_hw := mkHw true true (fun n => N.min n 3) (fun _ => 1).
Example ex_hw_ok : hw_ok ex_hw.
Proof. unfold hw_ok, ex_hw. cbn. repeat split; intros; lia. Qed.

Fixpoint sgo (h : simd_hw) (s : sstate) (l : list sop) : option sstate :=
  match l with
  | [] => Some s
  | o :: t => match sstep h s o with Some (SOk s') => sgo h s' t | _ => None end
  end.
Definition ex_regs (a : N) : regs := mkRegs (fun i j => a + 100 * i + j) (fun i j => a + i + j) (fun j => a + 7 + j) (a + 1) (a + 2) (a mod 4) 3 0 0 (a + 5) 0.
Definition ex_state (l : list sop) : sstate :=
  match sboot ex_hw (fun p => ex_regs p) with
  | Some s => match sgo ex_hw s l with Some s' => s' | None => s end
  | None => mkS (fun _ => zeros) (fun _ => false) (fun _ => zero_ctx) (fun _ => None) (fun _ => None)
  end.
Definition ex_good (l : list sop) : bool :=
  match sboot ex_hw (fun p => ex_regs p) with Some s => match sgo ex_hw s l with Some _ => true | None => false end | None => false end.

Lemma sgo_app : forall h a b s, sgo h s (a ++ b) = match sgo h s a with Some s' => sgo h s' b | None => None end.
Proof. intros h a. induction a as [|o a IH]; intros b s; [reflexivity|]. cbn. destruct (sstep h s o) as [[s'|]|]; auto. Qed.
Lemma ex_step : forall l o, ex_good (l ++ [o]) = true -> ex_good l = true /\ sstep ex_hw (ex_state l) o = Some (SOk (ex_state (l ++ [o]))).
Proof.
  intros l o. unfold ex_good, ex_state. destruct (sboot _ _); [|discriminate]. rewrite sgo_app. destruct (sgo ex_hw s l); [|discriminate].
  cbn [sgo]. destruct (sstep ex_hw s0 o) as [[s1|]|]; try discriminate. auto.
Qed.
Lemma ex_reach : forall l, ex_good l = true -> sreach ex_hw (ex_state l).
Proof.
  intros l. induction l as [|o l IH] using rev_ind; intros G.
  - unfold ex_state, ex_good in *. destruct (sboot _ _) eqn:E; [|discriminate]. cbn. eapply sreach_boot. exact E.
  - destruct (ex_step l o G) as (G1 & E). eapply sreach_step; [apply IH; exact G1|exact E].
Qed.

Lemma ex_rec : forall s i, match q_rec s i with Some _ => true | None => false end = true -> q_rec s i <> None.
Proof. intros s i H. destruct (q_rec s i); discriminate. Qed.
Lemma ex_sve : forall s i, match q_rec s i with Some x => sve_en (r_cfg x) | None => false end = true -> exists x, q_rec s i = Some x /\ sve_en (r_cfg x) = true.
Proof. intros s i H. destruct (q_rec s i); [eauto|discriminate]. Qed.

(** The host computes on CPU 0 in streaming mode; REC 7 (SVE, 256 bits) computes; the host
    does other things on CPU 1; REC 7 goes on there. *)
Definition ex_host : regs := mkRegs (fun i j => 3 + i * j) (fun i j => i + j) (fun j => j) 11 12 1 2 1 1 9 0.
Definition ex_1 : list sop := [OCreate 7 true 1; OCreate 8 false 0; OHostUse 0 ex_host].
Definition ex_2 : list sop := ex_1 ++ [OHostEnter 0 7 false false].
Definition ex_3 : list sop := ex_2 ++ [ORealmUse 0 AFpu (ex_regs 40) false].
Definition ex_4 : list sop := ex_3 ++ [ORealmUse 0 ASve (ex_regs 50) false].
Definition ex_5 : list sop := ex_4 ++ [ORealmCall 0 (Some (ex_regs 60)) true false].
Definition ex_6 : list sop := ex_5 ++ [ORealmExit 0].
Definition ex_7 : list sop := ex_6 ++ [OHostSmc 1 true (Some (ex_regs 70))].
Definition ex_8 : list sop := ex_7 ++ [OHostEnter 1 7 true false].
Definition ex_9 : list sop := ex_8 ++ [ORealmUse 1 AFpu (ex_regs 80) false].
Example ex_good_9 : ex_good ex_9 = true.
Proof. vm_compute. reflexivity. Qed.

Example C48_host_example : let s := ex_state ex_6 in
  away ex_hw 0 false (q_cpu (ex_state ex_1) 0) s /\ q_run s 0 = None /\
  streaming ex_hw (q_cpu s 0) = true /\ v_z (q_cpu s 0) 31 31 = 3 + 31 * 31 /\ v_ffr (q_cpu (ex_state ex_5) 0) 1 = 58.
Proof.
  destruct (ex_step ex_8 _ ex_good_9) as (G8 & _). destruct (ex_step ex_7 _ G8) as (G7 & _). destruct (ex_step ex_6 _ G7) as (G6 & _).
  destruct (ex_step ex_5 _ G6) as (G5 & E6). destruct (ex_step ex_4 _ G5) as (G4 & E5). destruct (ex_step ex_3 _ G4) as (G3 & E4). destruct (ex_step ex_2 _ G3) as (G2 & E3).
  destruct (ex_step ex_1 _ G2) as (G1 & E2).
  split; [|vm_compute; repeat split; reflexivity].
  refine (away_on _ _ _ _ _ _ _ _ _ E6); [|vm_compute; discriminate]. refine (away_on _ _ _ _ _ _ _ _ _ E5); [|vm_compute; discriminate]. refine (away_on _ _ _ _ _ _ _ _ _ E4); [|vm_compute; discriminate].
  refine (away_on _ _ _ _ _ _ _ _ _ E3); [|vm_compute; discriminate].
  eapply away_call with (s := ex_state ex_1); [apply ex_reach; exact G1|reflexivity| |exact E2]. split; reflexivity.
Qed.
(** CPU 1 finds REC 7's registers as CPU 0 left them. *)
Example C48_realm_example : let s := ex_state ex_9 in
  last_regs ex_hw 7 (q_cpu (ex_state ex_4) 0) s /\ (exists rmm, q_run s 1 = Some (7, rmm)) /\
  traps ex_hw ASve (q_cpu s 1) = false /\ v_z (q_cpu s 1) 31 31 = 50 + 3100 + 31 /\ v_ffr (q_cpu s 1) 3 = 60 /\
  (exists x, q_rec s 7 = Some x /\ sve_en (r_cfg x) = true).
Proof.
  destruct (ex_step ex_8 _ ex_good_9) as (G8 & E9). destruct (ex_step ex_7 _ G8) as (G7 & E8). destruct (ex_step ex_6 _ G7) as (G6 & E7).
  destruct (ex_step ex_5 _ G6) as (G5 & E6). destruct (ex_step ex_4 _ G5) as (G4 & E5). destruct (ex_step ex_3 _ G4) as (G3 & E4). destruct (ex_step ex_2 _ G3) as (G2 & E3).
  destruct (ex_step ex_1 _ G2) as (G1 & E2). destruct (ex_step [OCreate 7 true 1; OCreate 8 false 0] _ G1) as (G0 & E1).
  destruct (ex_step [OCreate 7 true 1] _ G0) as (Ga & E0). destruct (ex_step [] _ Ga) as (Gb & Ea).
  assert (NC : forall s o, match o with ORealmUse _ _ _ _ => False | _ => True end -> forall p, ~ computes ex_hw s 7 o p)
    by (intros s o H p (k & n & b & r & -> & _); exact H).
  assert (NT : forall s q k n b, traps ex_hw k (q_cpu s q) = true -> forall p, ~ computes ex_hw s 7 (ORealmUse q k n b) p)
    by (intros s q k n b H p (k' & n' & b' & r & E & _ & T); injection E as <- <- _ _; congruence).
  split.
  { refine (last_on _ _ _ _ _ _ _ _ _ E9); [|apply NT; vm_compute; reflexivity|apply ex_rec; vm_compute; reflexivity].
    refine (last_on _ _ _ _ _ _ _ _ _ E8); [|apply NC; exact Logic.I|apply ex_rec; vm_compute; reflexivity].
    refine (last_on _ _ _ _ _ _ _ _ _ E7); [|apply NC; exact Logic.I|apply ex_rec; vm_compute; reflexivity].
    refine (last_on _ _ _ _ _ _ _ _ _ E6); [|apply NC; exact Logic.I|apply ex_rec; vm_compute; reflexivity].
    refine (last_on _ _ _ _ _ _ _ _ _ E5); [|apply NC; exact Logic.I|apply ex_rec; vm_compute; reflexivity].
    eapply last_use with (s := ex_state ex_3); [| |exact E4].
    { refine (last_on _ _ _ _ _ _ _ _ _ E3); [|apply NT; vm_compute; reflexivity|apply ex_rec; vm_compute; reflexivity].
      refine (last_on _ _ _ _ _ _ _ _ _ E2); [|apply NC; exact Logic.I|apply ex_rec; vm_compute; reflexivity].
      refine (last_on _ _ _ _ _ _ _ _ _ E1); [|apply NC; exact Logic.I|apply ex_rec; vm_compute; reflexivity].
      refine (last_on _ _ _ _ _ _ _ _ _ E0); [|apply NC; exact Logic.I|apply ex_rec; vm_compute; reflexivity].
      eapply last_new; [apply ex_reach; exact Gb|exact Ea]. }
    exists ASve, (ex_regs 50), false, CPTR_INIT. repeat split. }
  cbv zeta. split; [exists CPTR_INIT; vm_compute; reflexivity|]. split; [vm_compute; reflexivity|]. split; [vm_compute; reflexivity|]. split; [vm_compute; reflexivity|].
  apply ex_sve. vm_compute. reflexivity.
Qed.

Definition simd_theorems := (@C48_boot, @C48_no_panic, @C48_host, @C48_other_cpus, @C48_realm, @C48_realm_has, @C48_realm_access).
Print Assumptions simd_theorems.
