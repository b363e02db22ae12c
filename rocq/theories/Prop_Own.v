(** C01-C04, C06, C07, C16-C18, C31: what holds in every reachable state.  The
    vocabulary is in Spec.v; the examples are about the concrete history of
    Demo.v, with two realms, data, tables and a REC that runs. *)
From Coq Require Import NArith ZArith List Bool.
From Verif Require Import Bits S2tte State Granule RecFields Measure RmiRtt RmiRealm Psci RmiRec Rsi RecRun Arch Mmu Machine Spec Own Mpidr Demo.
Import ListNotations.
Local Open Scope N_scope.

(* ------------------------------------------------------------------ *)
(** * C01 *)

(** A granule of realm memory is behind at most one page of at most one realm:
    whatever RIPAS the page has. *)
Theorem C01_exclusive : forall c h m, reachable c h m -> forall a1 d1 a2 d2 i1 i2 pa, realm m a1 d1 -> realm m a2 d2 ->
  page_granule (page_at (m_gr m) (rd_ctx d1) i1) = Some pa -> page_granule (page_at (m_gr m) (rd_ctx d2) i2) = Some pa ->
  a1 = a2 /\ i1 / 4096 = i2 / 4096.
Proof. exact exclusive. Qed.

(** The same for the translations the MMU makes: two addresses of two realms
    that translate to the same physical page (in the realm address space) are
    the same page of the same realm. *)
Theorem C01_translations : forall c h m, reachable c h m -> forall a1 d1 a2 d2 i1 i2 l1 w1 o1 xn1 l2 w2 o2 xn2,
  realm m a1 d1 -> realm m a2 d2 ->
  translate (m_gr m) (rd_ctx d1) i1 = XOk l1 w1 o1 false xn1 -> translate (m_gr m) (rd_ctx d2) i2 = XOk l2 w2 o2 false xn2 ->
  o1 / 4096 = o2 / 4096 -> a1 = a2 /\ i1 / 4096 = i2 / 4096.
Proof. exact exclusive_xlat. Qed.

Example C01_example : reachable dcfg dhw d_state /\ realm d_state (gr 0) d1 /\ realm d_state (gr 1) d2 /\
  page_granule (page_at (m_gr d_state) (rd_ctx d1) 0) = Some (gr 9) /\ page_granule (page_at (m_gr d_state) (rd_ctx d1) 4096) = Some (gr 10) /\
  page_granule (page_at (m_gr d_state) (rd_ctx d2) 8192) = Some (gr 13).
Proof.
  split; [exact d_state_reachable|]. split; [exact d_realm1|]. split; [exact d_realm2|]. vm_compute. auto.
Qed.

(* ------------------------------------------------------------------ *)
(** * C02 *)

Theorem C02_reaches_data : forall c h m, reachable c h m -> forall a d ipa l w oa xn, realm m a d ->
  translate (m_gr m) (rd_ctx d) ipa = XOk l w oa false xn -> g_state (m_gr m (oa - oa mod 4096)) = DATA.
Proof. exact reaches_data. Qed.

Example C02_example : exists l w xn, translate (m_gr d_state) (rd_ctx d1) 4104 = XOk l w (gr 10 + 8) false xn.
Proof. do 3 eexists. vm_compute. reflexivity. Qed.

(* ------------------------------------------------------------------ *)
(** * C03 *)

(** A mapping of host memory is in the upper half and cannot be executed from, a
    mapping of realm memory is in the lower half. *)
Theorem C03_ns_upper : forall c h m, reachable c h m -> forall a d ipa l w oa ns xn, realm m a d ->
  translate (m_gr m) (rd_ctx d) ipa = XOk l w oa ns xn ->
  if ns then ~ protected (rd_ctx d) ipa /\ ipa < 2 ^ ipa_bits (rd_ctx d) /\ xn = true else protected (rd_ctx d) ipa.
Proof. exact ns_upper. Qed.

Example C03_example : exists l w, translate (m_gr d_state) (rd_ctx d1) (2 ^ 32 + 4097) = XOk l w (2 ^ 30 + 4097) true true.
Proof. do 2 eexists. vm_compute. reflexivity. Qed.

(* ------------------------------------------------------------------ *)
(** * C04 *)

Theorem C04_scrubbed : forall c h m, reachable c h m -> forall a, g_state (m_gr m a) = DELEGATED ->
  exists f, g_mem (m_gr m a) = CW f /\ forall i, f i = 0.
Proof. exact scrubbed. Qed.

Example C04_example : g_state (m_gr d_state (gr 70)) = DELEGATED.
Proof. vm_compute. reflexivity. Qed.

(* ------------------------------------------------------------------ *)
(** * C06 *)

(** The count of a table is the number of its descriptors that are tables or
    hold memory of the realm. *)
Theorem C06_tables : forall c h m, reachable c h m -> forall a d l t b, realm m a d -> table_of (m_gr m) (rd_ctx d) l t b ->
  g_ref (m_gr m b) = live_count (m_gr m) (enable_lpa2 (rd_ctx d)) l b.
Proof. exact rtt_counts. Qed.

(** The count of a realm is the number of its RECs. *)
Theorem C06_realms : forall c h m, reachable c h m -> forall a d, realm m a d ->
  exists L, NoDup L /\ (forall b, In b L <-> exists r, rec_is m b r /\ r_g_rd r = a) /\ g_ref (m_gr m a) = N.of_nat (length L).
Proof. exact rd_counts. Qed.

(** The count of a REC tells whether a CPU executes it. *)
Theorem C06_recs : forall c h m, reachable c h m -> forall a r, rec_is m a r ->
  (g_ref (m_gr m a) = 1 /\ exists p, executes m p a) \/ (g_ref (m_gr m a) = 0 /\ forall p, ~ executes m p a).
Proof. exact rec_counts. Qed.

(** All other granules have none, and no count exceeds the 10 bits of its field. *)
Theorem C06_others : forall c h m, reachable c h m -> forall a,
  match g_state (m_gr m a) with RD | REC | RTT => g_ref (m_gr m a) <= 1023 | _ => g_ref (m_gr m a) = 0 end.
Proof. exact other_counts. Qed.

Example C06_example : map (fun n => g_ref (m_gr d_state (gr n))) [0; 1; 2; 6; 7; 8; 9; 14; 15] = [2; 1; 2; 1; 2; 0; 0; 1; 0] /\
  live_count (m_gr d_state) false 3 (gr 7) = 2 /\ table_of (m_gr d_state) (rd_ctx d1) 1 0 (gr 2 + 0 * 4096).
Proof. split; [vm_compute; reflexivity|]. split; [vm_compute; reflexivity|]. apply (to_root (m_gr d_state) (rd_ctx d1) 0). vm_compute. reflexivity. Qed.

(* ------------------------------------------------------------------ *)
(** * C07 *)

(** The granules in state RTT are the tables of the realms. *)
Theorem C07_tables : forall c h m, reachable c h m -> forall b, g_state (m_gr m b) = RTT <->
  exists a d l t, realm m a d /\ table_of (m_gr m) (rd_ctx d) l t b.
Proof. exact rtt_somewhere. Qed.

(** Each belongs to one realm, at one level and one range of addresses. *)
Theorem C07_once : forall c h m, reachable c h m -> forall b a1 d1 l1 t1 a2 d2 l2 t2, realm m a1 d1 -> realm m a2 d2 ->
  table_of (m_gr m) (rd_ctx d1) l1 t1 b -> table_of (m_gr m) (rd_ctx d2) l2 t2 b -> a1 = a2 /\ l1 = l2 /\ t1 = t2.
Proof. exact rtt_once. Qed.

(** At most one descriptor of one table refers to it. *)
Theorem C07_referenced_once : forall c h m, reachable c h m -> forall b a1 d1 l1 t1 b1 i1 w1 a2 d2 l2 t2 b2 i2 w2,
  realm m a1 d1 -> realm m a2 d2 ->
  table_of (m_gr m) (rd_ctx d1) l1 t1 b1 -> i1 < 512 -> tt_read (m_gr m) (b1 + 8 * i1) = Some w1 ->
  arch_decode (enable_lpa2 (rd_ctx d1)) l1 w1 = ATable b ->
  table_of (m_gr m) (rd_ctx d2) l2 t2 b2 -> i2 < 512 -> tt_read (m_gr m) (b2 + 8 * i2) = Some w2 ->
  arch_decode (enable_lpa2 (rd_ctx d2)) l2 w2 = ATable b ->
  b1 = b2 /\ i1 = i2.
Proof. exact rtt_ref_once. Qed.

(** No descriptor refers to a first table of a realm. *)
Theorem C07_roots : forall c h m, reachable c h m -> forall a1 d1 k a2 d2 l2 t2 b2 i2 w2, realm m a1 d1 -> realm m a2 d2 ->
  k < num_root_rtts (rd_ctx d1) ->
  table_of (m_gr m) (rd_ctx d2) l2 t2 b2 -> i2 < 512 -> tt_read (m_gr m) (b2 + 8 * i2) = Some w2 ->
  arch_decode (enable_lpa2 (rd_ctx d2)) l2 w2 <> ATable (g_rtt (rd_ctx d1) + k * 4096).
Proof. exact root_not_ref. Qed.

Example C07_example : table_of (m_gr d_state) (rd_ctx d1) 3 0 (gr 7) /\ table_of (m_gr d_state) (rd_ctx d1) 2 4 (gr 8) /\
  table_of (m_gr d_state) (rd_ctx d2) 1 1 (gr 5).
Proof.
  assert (R1 : table_of (m_gr d_state) (rd_ctx d1) 1 0 (gr 2)).
  { apply (to_root (m_gr d_state) (rd_ctx d1) 0). vm_compute. reflexivity. }
  assert (K : forall l t a i b, table_of (m_gr d_state) (rd_ctx d1) l t a -> i < 512 ->
    match tt_read (m_gr d_state) (a + 8 * i) with Some w => arch_decode (enable_lpa2 (rd_ctx d1)) l w | None => AInvalid end = ATable b ->
    table_of (m_gr d_state) (rd_ctx d1) (l + 1) (512 * t + i) b).
  { intros l t a i b T Hi E. destruct (tt_read (m_gr d_state) (a + 8 * i)) as [w|] eqn:W; [|discriminate E]. eapply to_child; eassumption. }
  split; [|split].
  - apply (K 2%Z 0 (gr 6) 0 (gr 7)); [|reflexivity|vm_compute; reflexivity].
    apply (K 1%Z 0 (gr 2) 0 (gr 6)); [exact R1|reflexivity|vm_compute; reflexivity].
  - apply (K 1%Z 0 (gr 2) 4 (gr 8)); [exact R1|reflexivity|vm_compute; reflexivity].
  - apply (to_root (m_gr d_state) (rd_ctx d2) 1). vm_compute. reflexivity.
Qed.

(* ------------------------------------------------------------------ *)
(** * C16 *)

Theorem C16_vmids : forall c h m, reachable c h m ->
  (forall a1 d1 a2 d2, realm m a1 d1 -> realm m a2 d2 -> vmid (rd_ctx d1) = vmid (rd_ctx d2) -> a1 = a2) /\
  (forall v, m_vmids m v = true <-> exists a d, realm m a d /\ vmid (rd_ctx d) = v) /\
  (forall a d, realm m a d -> vmid (rd_ctx d) < if c_vmid16 c then 2 ^ 16 else 2 ^ 8).
Proof. exact vmids. Qed.

Example C16_example : vmid (rd_ctx d1) = 1 /\ vmid (rd_ctx d2) = 2 /\ m_vmids d_state 2 = true /\ m_vmids d_state 3 = false.
Proof. vm_compute. auto. Qed.

(* ------------------------------------------------------------------ *)
(** * C18 *)

(** A REC has the number that its realm reads from MPIDR_EL1; it is smaller than
    the number of RECs created for the realm. *)
Theorem C18_index : forall c h m, reachable c h m -> forall a r, rec_is m a r ->
  r_idx r = realm_index (r_sys r VMPIDR_EL2) /\ exists d, realm m (r_g_rd r) d /\ r_idx r < rd_rec_count d.
Proof. exact rec_number. Qed.

Theorem C18_distinct : forall c h m, reachable c h m -> forall a1 r1 a2 r2, rec_is m a1 r1 -> rec_is m a2 r2 ->
  r_g_rd r1 = r_g_rd r2 -> r_idx r1 = r_idx r2 -> a1 = a2.
Proof. exact rec_idx. Qed.

(** Different identities that the host may give have different numbers. *)
Theorem C18_injective : forall m1 m2, rec_mpidr_is_valid m1 = true -> rec_mpidr_is_valid m2 = true -> host_index m1 = host_index m2 -> m1 = m2.
Proof. exact valid_index_inj. Qed.

(** The number computed at creation *)
Theorem C18_of_mpidr : forall m, rec_mpidr_to_idx m = host_index m.
Proof. exact to_idx_fields. Qed.

Example C18_example : r_idx (rec_of d_state (gr 15)) = 1 /\ r_sys (rec_of d_state (gr 15)) VMPIDR_EL2 = 2 ^ 31 + 1 /\
  rec_mpidr_is_valid (2 ^ 24 + 256 + 3) = true /\ host_index (2 ^ 24 + 256 + 3) = 2 ^ 20 + 16 + 3.
Proof. vm_compute. auto. Qed.

(* ------------------------------------------------------------------ *)
(** * C31 and C34 *)

(** The registers with which a REC runs make the MMU translate by the tables of
    its realm. *)
Theorem C31_registers : forall c h m, reachable c h m -> forall a r d, rec_is m a r -> realm m (r_g_rd r) d -> forall ipa,
  rec_xlat (m_gr m) r ipa = translate (m_gr m) (rd_ctx d) ipa.
Proof. exact mmu_tables. Qed.

Example C31_example : r_g_rd r1 = gr 0 /\ exists l w, rec_xlat (m_gr d_state) r1 8 = XOk l w (gr 9 + 8) false false.
Proof. split; [vm_compute; reflexivity|]. do 2 eexists. vm_compute. reflexivity. Qed.

Definition own_theorems := (@C01_exclusive, @C01_translations, @C02_reaches_data, @C03_ns_upper, @C04_scrubbed, @C06_tables, @C06_realms, @C06_recs, @C06_others, @C07_tables, @C07_once, @C07_referenced_once, @C07_roots, @C16_vmids, @C18_index, @C18_distinct, @C18_injective, @C18_of_mpidr, @C31_registers).
Print Assumptions own_theorems.
