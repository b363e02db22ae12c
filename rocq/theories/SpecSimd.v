(** What it means for SIMD registers to belong to a world. *)
From Coq Require Import NArith List Bool.
From Verif Require Import Simd.
Local Open Scope N_scope.

(** Facts of the hardware: selecting a vector length gives a supported one that is not
    longer, and streaming vectors fit the save area (asserted at boot, simd.c:486). *)
Definition hw_ok (h : simd_hw) : Prop :=
  (forall n, hw_vq h n <= n) /\ (forall n, hw_vq h (hw_vq h n) = hw_vq h n) /\ (forall n, hw_svq h n <= 15).

Inductive sreach (h : simd_hw) : sstate -> Prop :=
| sreach_boot : forall f s, sboot h f = Some s -> sreach h s
| sreach_step : forall s o s', sreach h s -> sstep h s o = Some (SOk s') -> sreach h s'.

(** ** The host *)

(** A value is kept; one the host declared dead may instead become zero. *)
Definition kept_or (full : bool) (a b : N) : Prop := if full then b = a else b = a \/ b = 0.

(** [r] is as good as [r0] for the host, which set the SVE hint as [hint] says: all
    control registers and the FPU registers are the same, and so are the SVE registers,
    up to the longest vector the host can select, unless the hint allows their loss. *)
Definition host_same (h : simd_hw) (hint : bool) (r0 r : regs) : Prop :=
  v_fpsr r = v_fpsr r0 /\ v_fpcr r = v_fpcr r0 /\ v_zcr1 r = v_zcr1 r0 /\ v_zcr2 r = v_zcr2 r0 /\
  v_svcr r = v_svcr r0 /\ v_smcr r = v_smcr r0 /\ v_za r = v_za r0 /\
  (forall i j, i < 32 -> j < 16 -> v_z r i j = v_z r0 i j) /\
  (streaming h r0 || hw_sve h = true ->
   let vq := if streaming h r0 then hw_svq h (v_smcr r0) else hw_vq h 15 in
   let full := streaming h r0 || negb hint in
   (forall i j, i < 32 -> j < 16 * (vq + 1) -> kept_or full (v_z r0 i j) (v_z r i j)) /\
   (forall i j, i < 16 -> j < 2 * (vq + 1) -> kept_or full (v_p r0 i j) (v_p r i j)) /\
   (streaming h r0 = false \/ fa64 r0 = true -> forall j, j < 2 * (vq + 1) -> kept_or full (v_ffr r0 j) (v_ffr r j))).

(** The event is a call of the host on CPU [p]. *)
Definition host_call (p : N) (hint : bool) (o : sop) : Prop :=
  match o with
  | OHostSmc q b _ => q = p /\ b = hint
  | OHostEnter q _ b _ => q = p /\ b = hint
  | _ => False
  end.

(** The host called on CPU [p] with registers [r0], and was not returned to before [s]. *)
Inductive away (h : simd_hw) (p : N) (hint : bool) (r0 : regs) : sstate -> Prop :=
| away_call : forall s o s', sreach h s -> r0 = q_cpu s p -> host_call p hint o -> sstep h s o = Some (SOk s') -> away h p hint r0 s'
| away_on : forall s o s', away h p hint r0 s -> q_run s p <> None -> sstep h s o = Some (SOk s') -> away h p hint r0 s'.

(** The CPU on which an event happens. *)
Definition on_cpu (o : sop) : option N :=
  match o with
  | OHostUse p _ | OHostSmc p _ _ | OHostEnter p _ _ _ | ORealmUse p _ _ _ | ORealmCall p _ _ _ | ORealmExit p => Some p
  | OCreate _ _ _ | ODestroy _ => None
  end.

(** ** Realms *)

(** [r] and [r0] agree in what a realm with configuration [g] can read. *)
Definition realm_same (h : simd_hw) (g : simd_config) (r0 r : regs) : Prop :=
  v_fpsr r = v_fpsr r0 /\ v_fpcr r = v_fpcr r0 /\
  (forall i j, i < 32 -> j < 16 -> v_z r i j = v_z r0 i j) /\
  (sve_en g = true ->
   v_zcr1 r = v_zcr1 r0 /\
   (forall i j, i < 32 -> j < 16 * (hw_vq h (sve_vq g) + 1) -> v_z r i j = v_z r0 i j) /\
   (forall i j, i < 16 -> j < 2 * (hw_vq h (sve_vq g) + 1) -> v_p r i j = v_p r0 i j) /\
   (forall j, j < 2 * (hw_vq h (sve_vq g) + 1) -> v_ffr r j = v_ffr r0 j)).

Definition zeros : regs := mkRegs (fun _ _ => 0) (fun _ _ => 0) (fun _ => 0) 0 0 0 0 0 0 0 0.

(** REC [i] computes with its SIMD registers: it executes, on CPU [p], an instruction
    that does not trap. *)
Definition computes (h : simd_hw) (s : sstate) (i : N) (o : sop) (p : N) : Prop :=
  exists k n b rmm, o = ORealmUse p k n b /\ q_run s p = Some (i, rmm) /\ traps h k (q_cpu s p) = false.

(** [v]: what REC [i] left in its registers when it last computed with them; zeros at
    first. *)
Inductive last_regs (h : simd_hw) (i : N) : regs -> sstate -> Prop :=
| last_new : forall s sve vq s', sreach h s -> sstep h s (OCreate i sve vq) = Some (SOk s') -> last_regs h i zeros s'
| last_use : forall v s o p s', last_regs h i v s -> computes h s i o p -> sstep h s o = Some (SOk s') -> last_regs h i (q_cpu s' p) s'
| last_on : forall v s o s', last_regs h i v s -> (forall p, ~ computes h s i o p) -> q_rec s' i <> None ->
    sstep h s o = Some (SOk s') -> last_regs h i v s'.
