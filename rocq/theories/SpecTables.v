(** Vocabulary of the theorems about single entries of translation tables, the
    parameters of realms and the conditions under which commands succeed.
    Nothing here models code; descriptors are read as the architecture reads
    them, see [Spec] for the software fields of invalid ones. *)
From Coq Require Import NArith ZArith List Bool.
From Verif Require Import Bits S2tte State Granule Measure RmiRealm Psci RmiRec Rsi RecRun Arch Mmu Machine Spec SpecStep.
Import ListNotations.
Local Open Scope N_scope.

(** ** Walks *)

(** The descriptor that the walk for [ipa] reads last when it goes no further
    than the level [target]: its address, its level and the descriptor *)
Fixpoint walk_to (fuel : nat) (rdw : N -> option N) (ds : bool) (target level : Z) (daddr ipa : N) : option (N * Z * N) :=
  match rdw daddr with
  | None => None
  | Some w =>
    if (level =? target)%Z then Some (daddr, level, w)
    else match arch_decode ds level w with
         | ATable next =>
           match fuel with
           | O => None
           | S n => walk_to n rdw ds target (level + 1) (next + 8 * ((ipa / 2 ^ arch_lsb (level + 1)) mod 512)) ipa
           end
         | _ => Some (daddr, level, w)
         end
  end.
Definition entry_at (G : N -> granule) (x : s2ctx) (ipa : N) (target : Z) : option (N * Z * N) :=
  walk_to 4 (tt_read G) (enable_lpa2 x) target (s2_sl x) (first_desc x ipa) ipa.

(** A descriptor without memory behind it that is not a table *)
Definition unassigned (ds : bool) (l : Z) (w : N) : bool :=
  match arch_decode ds l w with
  | ATable _ => false
  | _ => match page_desc ds l w 0 with PUnassigned _ | PNsUnassigned => true | _ => false end
  end.

(** ** C27: what RTT_READ_ENTRY reports *)

(** The fields of a descriptor of unprotected memory that the host supplies:
    MemAttr in bits [4:2], S2AP in bits [7:6] and the output address *)
Definition host_fields (ds : bool) (l : Z) (w : N) : N :=
  let lsb := arch_lsb l in
  bits w 4 2 * 2 ^ 2 + bits w 7 6 * 2 ^ 6 +
  (if ds then bits w 9 8 * 2 ^ 8 + bits w 49 lsb * 2 ^ lsb else bits w 47 lsb * 2 ^ lsb).
(** State (0 unassigned, 1 assigned, 2 table), address or host's descriptor, and
    RIPAS (0 EMPTY, 1 RAM, 2 DESTROYED) *)
Definition ripas_num (q : ripas) : N := match q with EMPTY => 0 | RAM => 1 | DESTROYED => 2 end.
Definition describe (ds : bool) (l : Z) (w : N) : N * N * N :=
  match arch_decode ds l w with
  | ATable next => (2, next, 0)
  | _ =>
    match page_desc ds l w 0 with
    | PUnassigned q => (0, 0, ripas_num q)
    | PAssigned q pa => (1, pa, ripas_num q)
    | PNsAssigned _ _ _ => (1, host_fields ds l w, 0)
    | _ => (0, 0, 0)
    end
  end.
(** A level as a 64-bit result *)
Definition level_word (l : Z) : N := Z.to_N (l mod 2 ^ 64).

(** ** C33: parameters of realms *)

(** The sizes, start levels and numbers of concatenated first tables that the
    architecture allows for a 4KB granule (Arm ARM, D8.2): the first tables
    resolve at least one bit; one table resolves nine, and from level 1 on, or 0
    with 52-bit addresses, up to 16 tables may be concatenated.  The monitor
    also wants 32 bits at least. *)
Definition geometry (size : N) (sl : Z) (tables : N) (ds : bool) : Prop :=
  let lsb := arch_lsb sl in
  32 <= size <= (if ds then 52 else 48) /\ ((if ds then -1 else 0) <= sl <= 3)%Z /\ lsb < size /\
  (size <= lsb + 9 /\ tables = 1 \/
   ((1 <= sl)%Z \/ (sl = 0)%Z /\ ds = true) /\ lsb + 9 < size <= lsb + 13 /\ tables = 2 ^ (size - lsb - 9)).

(** The fields of feature register 0: S2SZ 7:0, LPA2 8, SVE 9, SVE_VL 13:10,
    NUM_BPS 19:14, NUM_WPS 25:20, PMU_NUM_CTRS 31:27.  Flags of a realm: 0 LPA2, 1 SVE,
    2 PMU. *)
Definition params_ok (c : cfg) (p : rparams) : Prop :=
  let f := c_feat0 c in
  geometry (p_s2sz p) (p_rtt_level_start p) (p_rtt_num_start p) (N.testbit (p_flags p) 0) /\
  p_s2sz p <= bits f 7 0 /\ (N.testbit (p_flags p) 0 = true -> N.testbit f 8 = true) /\
  (p_rtt_level_start p = 0%Z -> 44 <= c_pa_width c) /\
  1 <= p_num_bps p <= bits f 19 14 /\ 1 <= p_num_wps p <= bits f 25 20 /\
  (N.testbit (p_flags p) 1 = true -> N.testbit f 9 = true /\ p_sve_vl p <= bits f 13 10) /\
  (N.testbit (p_flags p) 2 = true -> p_pmu_num_ctrs p <= bits f 31 27 /\ (p_pmu_num_ctrs p = 0 -> c_hpmn0 c = true)) /\
  (p_algorithm p = 0 \/ p_algorithm p = 1).

(** VMIDs have 8 or 16 bits *)
Definition vmid_ok (c : cfg) (v : N) : Prop := v < (if c_vmid16 c then 2 ^ 16 else 2 ^ 8).
Definition vmid_unused (m : mstate) (v : N) : Prop := forall a d, realm m a d -> vmid (rd_ctx d) <> v.

(** ** Conditions of commands *)

(** A granule of the platform that belongs to the host *)
Definition host_granule (c : cfg) (m : mstate) (a : N) : Prop := a mod 4096 = 0 /\ c_gran c a = true /\ g_state (m_gr m a) = NS.

(** The realm has an entry of this level for [ipa] and [P] holds of it *)
Definition entry_is (m : mstate) (d : rdesc) (ipa : N) (l : Z) (P : N -> Prop) : Prop :=
  exists a w, entry_at (m_gr m) (rd_ctx d) ipa l = Some (a, l, w) /\ P w.
(** [ipa] is the first address of an entry of this level *)
Definition starts (d : rdesc) (ipa : N) (l : Z) : Prop := ipa < 2 ^ ipa_bits (rd_ctx d) /\ ipa mod 2 ^ arch_lsb l = 0.
Definition starts_protected (d : rdesc) (ipa : N) : Prop := protected (rd_ctx d) ipa /\ ipa mod 4096 = 0.
Definition starts_unprotected (d : rdesc) (ipa : N) (l : Z) : Prop :=
  (1 <= l <= 3)%Z /\ (s2_sl (rd_ctx d) <= l)%Z /\ starts d ipa l /\ ~ protected (rd_ctx d) ipa.
(** Table descriptors can point to it *)
Definition in_reach (d : rdesc) (a : N) : Prop := enable_lpa2 (rd_ctx d) = true \/ a < 2 ^ 48.
(** The host's descriptor has no other field and its MemAttr is not the reserved
    value 4 *)
Definition host_desc_ok (d : rdesc) (l : Z) (w : N) : Prop := host_fields (enable_lpa2 (rd_ctx d)) l w = w /\ bits w 4 2 <> 4.

(** What the arguments of a command must be *)
Definition input_ok (c : cfg) (m : mstate) (k : cmd) : Prop :=
  match k with
  | KGranuleDelegate el3 a => el3 = true /\ host_granule c m a
  | KGranuleUndelegate _ a => g_state (m_gr m a) = DELEGATED
  | KDataCreate readable rd data ipa src fl => exists d, realm m rd d /\ g_state (m_gr m data) = DELEGATED /\ in_reach d data /\
      starts_protected d ipa /\ (fl = 0 \/ fl = 1) /\ host_granule c m src /\ readable = true
  | KDataCreateUnknown rd data ipa => exists d, realm m rd d /\ g_state (m_gr m data) = DELEGATED /\ in_reach d data /\
      starts_protected d ipa
  | KDataDestroy rd ipa => exists d, realm m rd d /\ starts_protected d ipa
  | KRealmActivate rd | KRealmDestroy rd | KRecAuxCount rd => exists d, realm m rd d
  | KRealmCreate q rd pa => exists p, q = Some p /\ host_granule c m pa /\ params_ok c p /\ vmid_ok c (p_vmid p) /\ vmid_unused m (p_vmid p) /\
      g_state (m_gr m rd) = DELEGATED /\
      forall i, i < p_rtt_num_start p -> g_state (m_gr m (p_rtt_base p + i * 4096)) = DELEGATED /\ p_rtt_base p + i * 4096 <> rd
  | KRecDestroy a => exists r, rec_is m a r
  | KRttCreate rd rtt ipa ul => exists d, realm m rd d /\ (s2_sl (rd_ctx d) < sgn64 ul <= 3)%Z /\ starts d ipa (sgn64 ul - 1) /\
      g_state (m_gr m rtt) = DELEGATED /\ in_reach d rtt
  | KRttDestroy rd ipa ul => exists d, realm m rd d /\ (s2_sl (rd_ctx d) < sgn64 ul <= 3)%Z /\ starts d ipa (sgn64 ul - 1)
  | KRttMapUnprotected rd ipa ul w => exists d, realm m rd d /\ starts_unprotected d ipa (sgn64 ul) /\ host_desc_ok d (sgn64 ul) w
  | KRttUnmapUnprotected rd ipa ul => exists d, realm m rd d /\ starts_unprotected d ipa (sgn64 ul)
  | KRttReadEntry rd ipa ul => exists d, realm m rd d /\ (s2_sl (rd_ctx d) <= sgn64 ul <= 3)%Z /\ starts d ipa (sgn64 ul)
  | _ => True
  end.

(** What the realm or the REC must be like *)
Definition object_ok (m : mstate) (k : cmd) : Prop :=
  match k with
  | KDataCreate _ rd _ _ _ _ | KRealmActivate rd => exists d, realm m rd d /\ rd_state d = REALM_NEW
  | KRealmDestroy rd => exists d, realm m rd d /\ (forall a r, rec_is m a r -> r_g_rd r <> rd) /\
      forall i, i < num_root_rtts (rd_ctx d) ->
        live_count (m_gr m) (enable_lpa2 (rd_ctx d)) (s2_sl (rd_ctx d)) (g_rtt (rd_ctx d) + i * 4096) = 0
  | KRecDestroy a => forall p, ~ executes m p a
  | _ => True
  end.

(** The entry a command is about, and what it must be like *)
Definition walks (k : cmd) : option (N * N * Z) :=
  match k with
  | KDataCreate _ rd _ ipa _ _ | KDataCreateUnknown rd _ ipa | KDataDestroy rd ipa => Some (rd, ipa, 3%Z)
  | KRttCreate rd _ ipa ul | KRttDestroy rd ipa ul => Some (rd, ipa, sgn64 ul - 1)%Z
  | KRttMapUnprotected rd ipa ul _ | KRttUnmapUnprotected rd ipa ul => Some (rd, ipa, sgn64 ul)
  | _ => None
  end.
Definition wanted (m : mstate) (d : rdesc) (k : cmd) (w : N) : Prop :=
  let ds := enable_lpa2 (rd_ctx d) in
  match k with
  | KDataCreate _ _ _ _ _ _ | KDataCreateUnknown _ _ _ => exists q, page_desc ds 3 w 0 = PUnassigned q
  | KDataDestroy _ _ => exists q pa, page_desc ds 3 w 0 = PAssigned q pa
  | KRttCreate _ _ _ ul => forall b, arch_decode ds (sgn64 ul - 1) w <> ATable b
  | KRttDestroy _ _ ul => exists b, arch_decode ds (sgn64 ul - 1) w = ATable b /\ live_count (m_gr m) ds (sgn64 ul) b = 0
  | KRttMapUnprotected _ _ ul _ => page_desc ds (sgn64 ul) w 0 = PNsUnassigned
  | KRttUnmapUnprotected _ _ ul => exists pa a q, page_desc ds (sgn64 ul) w 0 = PNsAssigned pa a q
  | _ => True
  end.
Definition place_ok (m : mstate) (k : cmd) : Prop :=
  match walks k with
  | Some (rd, ipa, l) => exists d, realm m rd d /\ entry_is m d ipa l (wanted m d k)
  | None => True
  end.

Definition ready (c : cfg) (m : mstate) (k : cmd) : Prop := input_ok c m k /\ object_ok m k /\ place_ok m k.

(** The commands the conditions above are complete for *)
Definition listed (k : cmd) : bool :=
  match k with
  | KUnknown | KFeatures _ | KVersion _ | KRecCreate _ _ _ _ | KPsciComplete _ _ _ | KRttFold _ _ _ | KRttInitRipas _ _ _ | KRttSetRipas _ _ _ _ => false
  | _ => true
  end.

(** Why a command that is not [ready] fails, and the code it returns: 1 the
    arguments; 2 the realm; 3 the REC; 4 with a level in bits [15:8] the entry, or
    that the walk ends before it *)
Definition entry_code (l : Z) : N := 4 + 256 * Z.to_N (l mod 256).
Definition refused (c : cfg) (m : mstate) (k : cmd) (code : N) : Prop :=
  code = 1 /\ ~ input_ok c m k \/
  code = match k with KRecDestroy _ => 3 | _ => 2 end /\ ~ object_ok m k \/
  exists rd ipa target d a l w, walks k = Some (rd, ipa, target) /\ realm m rd d /\
    entry_at (m_gr m) (rd_ctx d) ipa target = Some (a, l, w) /\ (l = target -> ~ wanted m d k w) /\
    (code = entry_code l \/ exists ul, k = KRttDestroy rd ipa ul /\ l = target /\ code = entry_code (sgn64 ul)).

(** ** C28: the address to go on from *)

(** The commands that return it: realm, address, level of the entry and the
    result *)
Definition top_of (k : cmd) (r : res) : option (N * N * Z * N) :=
  match k with
  | KDataDestroy rd ipa => Some (rd, ipa, 3%Z, x2 r)
  | KRttDestroy rd ipa ul => Some (rd, ipa, sgn64 ul - 1, x2 r)%Z
  | KRttUnmapUnprotected rd ipa ul => Some (rd, ipa, sgn64 ul, x1 r)
  | _ => None
  end.

(** [top] is the first address after [ipa] for which the table of level [l]
    that translates [ipa] has memory or a further table, or the end of what that
    table translates *)
Definition goes_on (G : N -> granule) (x : s2ctx) (ipa : N) (l : Z) (top : N) : Prop :=
  let size := 2 ^ arch_lsb l in
  let stop := (ipa / (512 * size) + 1) * (512 * size) in
  let entry z b := exists a w, entry_at G x z l = Some (a, l, w) /\ unassigned (enable_lpa2 x) l w = b in
  ipa < top <= stop /\ top mod size = 0 /\
  (forall z, ipa <= z < top -> z < 2 ^ ipa_bits x -> entry z true) /\
  (top < stop -> top < 2 ^ ipa_bits x /\ entry top false).
