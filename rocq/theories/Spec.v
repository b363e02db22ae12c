(** Vocabulary of the theorems about the whole system: reachable states, the
    realms and RECs of a state, and what the translation tables of a realm say
    about an address, read as the architecture reads them.  Nothing here models
    code of the monitor, except that the last section knows the two software
    fields of invalid descriptors. *)
From Coq Require Import NArith ZArith List Bool.
From Verif Require Import Bits S2tte State Measure RmiRealm Psci RmiRec Rsi RecRun Arch Mmu Machine.
Import ListNotations.
Local Open Scope N_scope.

(** ** Histories *)

(** Assumption on the attestation library: the token fits the buffer it is given *)
Definition cca_ok (env : att_env) : Prop :=
  forall len bytes, ae_cca env = Some (len, bytes) -> len <= REC_ATTEST_TOKEN_BUF_SIZE.

(** What the outside world is assumed to do: attestation tokens fit their
    buffer, the processor reports an SError with the exception class of SErrors
    (47), and the host aligns the first tables of a realm to their size and
    places them where table descriptors can point (the monitor does not check
    this: finding F9) *)
Definition op_ok (o : op) : Prop :=
  match o with
  | OExit _ ev _ _ => cca_ok (ev_att ev) /\ (ev_exc ev = ExcSerror -> bits (ev_esr ev) 31 26 = 47)
  | OCmd _ (KRealmCreate (Some p) _ _) =>
      p_rtt_base p mod (4096 * p_rtt_num_start p) = 0 /\ p_rtt_base p < 2 ^ (if is_lpa2_requested p then 52 else 48)
  | _ => True
  end.

(** Assumption on the platform: granules lie in the 52-bit address space *)
Definition cfg_ok (c : cfg) : Prop := forall a, c_gran c a = true -> a < 2 ^ 52.

(** The states that histories from boot lead to, whatever memory holds at boot *)
Definition reachable (c : cfg) (h : hw) (m : mstate) : Prop :=
  cfg_ok c /\ exists mem l, steps c h (init mem) l m /\ Forall op_ok (map fst l).

(** ** Objects *)

Definition realm (m : mstate) (a : N) (d : rdesc) : Prop := g_state (m_gr m a) = RD /\ g_mem (m_gr m a) = CRd d.
Definition rec_is (m : mstate) (a : N) (r : recd) : Prop := g_state (m_gr m a) = REC /\ g_mem (m_gr m a) = CRec r.
(** CPU [p] executes the REC [a] *)
Definition executes (m : mstate) (p a : N) : Prop := exists ru, m_cpu m p = Some ru /\ ru_rec ru = a.

(** ** Translation tables *)

(** The address of the first descriptor of the walk for [ipa] *)
Definition first_desc (x : s2ctx) (ipa : N) : N := g_rtt x + 8 * (ipa / 2 ^ arch_lsb (s2_sl x)).
(** Translation of [ipa] by the tables of a realm *)
Definition translate (G : N -> granule) (x : s2ctx) (ipa : N) : xlat :=
  if ipa <? 2 ^ ipa_bits x then arch_walk 4 (tt_read G) (enable_lpa2 x) (s2_sl x) (first_desc x ipa) ipa else XFault.

(** The last descriptor of a walk, valid or not, and its level *)
Fixpoint last_desc (fuel : nat) (rdw : N -> option N) (ds : bool) (level : Z) (daddr ipa : N) : option (Z * N) :=
  match rdw daddr with
  | None => None
  | Some w =>
    match arch_decode ds level w with
    | ATable next =>
      match fuel with
      | O => None
      | S n => last_desc n rdw ds (level + 1) (next + 8 * ((ipa / 2 ^ arch_lsb (level + 1)) mod 512)) ipa
      end
    | _ => Some (level, w)
    end
  end.

(** What a realm has at a page: nothing (outside of the address space); in the
    protected half a RIPAS with or without memory; in the unprotected half
    memory of the host, with its attributes and access permissions, or none *)
Inductive page :=
| POut
| PUnassigned (r : ripas)
| PAssigned (r : ripas) (pa : N)
| PNsUnassigned
| PNsAssigned (pa attrs perms : N).

(** The monitor keeps HIPAS in bits [4:2] and RIPAS in bits [6:5] of invalid
    descriptors, bit 55 telling those of the unprotected half; descriptors with
    memory hold its address where valid ones do. *)
Definition ripas_bits (w : N) : ripas := match bits w 6 5 with 0 => EMPTY | 1 => RAM | _ => DESTROYED end.
Definition page_desc (ds : bool) (level : Z) (w ipa : N) : page :=
  let pa oa := oa + (ipa mod 2 ^ arch_lsb level) / 4096 * 4096 in
  match arch_decode ds level w with
  | ALeaf oa false _ => PAssigned RAM (pa oa)
  | ALeaf oa true _ => PNsAssigned (pa oa) (bits w 4 2) (bits w 7 6)
  | ATable _ => POut
  | AInvalid =>
    if N.testbit w 55 then PNsUnassigned
    else match bits w 4 2 with
         | 0 => PUnassigned (ripas_bits w)
         | _ => PAssigned (ripas_bits w) (pa (arch_oa ds (arch_lsb level) w))
         end
  end.

Definition page_at (G : N -> granule) (x : s2ctx) (ipa : N) : page :=
  if ipa <? 2 ^ ipa_bits x then
    match last_desc 4 (tt_read G) (enable_lpa2 x) (s2_sl x) (first_desc x ipa) ipa with
    | Some (l, w) => page_desc (enable_lpa2 x) l w ipa
    | None => POut
    end
  else POut.

(** The protected half of the address space *)
Definition protected (x : s2ctx) (ipa : N) : Prop := ipa < 2 ^ (ipa_bits x - 1).

Definition page_ripas (p : page) : option ripas :=
  match p with PUnassigned r | PAssigned r _ => Some r | _ => None end.
(** The granule behind a page of the protected half *)
Definition page_granule (p : page) : option N := match p with PAssigned _ pa => Some pa | _ => None end.
(** What the realm reads there: the words of the granule, when it can access it *)
Definition page_words (G : N -> granule) (p : page) : option (N -> N) :=
  match p with
  | PAssigned RAM pa => match g_mem (G pa) with CW f => Some f | _ => None end
  | _ => None
  end.

(** The tables of a realm: [table_of G x l t a] when the granule [a] is the table
    number [t] of level [l], found by following descriptors from the first
    tables; it holds the descriptors of the addresses from [t * 2^(lsb l + 9)]
    on. *)
Inductive table_of (G : N -> granule) (x : s2ctx) : Z -> N -> N -> Prop :=
| to_root : forall k, k < num_root_rtts x -> table_of G x (s2_sl x) k (g_rtt x + k * 4096)
| to_child : forall l t a i w b, table_of G x l t a -> i < 512 -> tt_read G (a + 8 * i) = Some w ->
    arch_decode (enable_lpa2 x) l w = ATable b -> table_of G x (l + 1) (512 * t + i) b.

(** A descriptor that a reference count counts: a table, or memory of the realm *)
Definition live_desc (ds : bool) (level : Z) (w : N) : bool :=
  match arch_decode ds level w with
  | ATable _ => true
  | _ => match page_desc ds level w 0 with PAssigned _ _ => true | _ => false end
  end.
Definition live_count (G : N -> granule) (ds : bool) (level : Z) (a : N) : N :=
  N.of_nat (length (filter (fun i => match tt_read G (a + 8 * N.of_nat i) with Some w => live_desc ds level w | None => false end) (seq 0 512))).

(** The number of a virtual CPU: its affinity fields, of which the first has four
    bits.  The host gives them in one word, the realm reads them from MPIDR_EL1
    where the last field is elsewhere. *)
Definition host_index (w : N) : N := bits w 3 0 + 16 * bits w 15 8 + 4096 * bits w 23 16 + 2 ^ 20 * bits w 31 24.
Definition realm_index (w : N) : N := bits w 3 0 + 16 * bits w 15 8 + 4096 * bits w 23 16 + 2 ^ 20 * bits w 39 32.
