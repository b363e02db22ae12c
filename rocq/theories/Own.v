(** What holds in every reachable state: ownership of memory, tables, reference
    counts, identities *)
From Coq Require Import NArith ZArith List Bool Lia ZifyBool ZifyN.
From Verif Require Import Bits S2tte S2tteFacts State Granule Wp RecFields Measure RmiRtt RmiRealm Psci RmiRec Rsi RecRun
  Arch ArchFacts Mmu Machine Inv InvTree MmuFacts InvStep InvStep2 InvStep3 Effects Frames CmdAll MInv MStep View Mpidr.
Import ListNotations.
Local Open Scope N_scope.

Lemma reach_minv : forall c h m, reachable c h m -> exists gh, MInv c gh m.
Proof.
  intros c h m (C & mem & l & S & F). eapply steps_minv; [exact C|exact S|exact F|apply minv_init].
Qed.

(** ** Ownership *)

Lemma exclusive : forall c h m, reachable c h m -> forall a1 d1 a2 d2 i1 i2 pa, realm m a1 d1 -> realm m a2 d2 ->
  page_granule (page_at (m_gr m) (rd_ctx d1) i1) = Some pa -> page_granule (page_at (m_gr m) (rd_ctx d2) i2) = Some pa ->
  a1 = a2 /\ i1 / 4096 = i2 / 4096.
Proof.
  intros c h m R a1 d1 a2 d2 i1 i2 pa R1 R2 P1 P2. destruct (reach_minv _ _ _ R) as (gh & M). pose proof (mv_inv _ _ _ M) as I.
  destruct (granule_dmap _ _ _ _ I _ _ _ _ R1 P1) as (_ & _ & D1 & _). destruct (granule_dmap _ _ _ _ I _ _ _ _ R2 P2) as (_ & _ & D2 & _).
  rewrite D1 in D2. injection D2 as -> ->. auto.
Qed.

(** A translation to realm memory is what [page_at] says *)
Lemma translate_page : forall c h m, reachable c h m -> forall a d ipa, realm m a d ->
  match translate (m_gr m) (rd_ctx d) ipa with
  | XOk _ _ oa false xn => page_at (m_gr m) (rd_ctx d) ipa = PAssigned RAM (page_of oa) /\ oa mod 4096 = ipa mod 4096 /\ xn = false
  | XOk _ _ oa true xn => exists at_ ap, page_at (m_gr m) (rd_ctx d) ipa = PNsAssigned (page_of oa) at_ ap /\ oa mod 4096 = ipa mod 4096 /\ xn = true
  | XFault => match page_at (m_gr m) (rd_ctx d) ipa with PAssigned RAM _ | PNsAssigned _ _ _ => False | _ => True end
  end.
Proof.
  intros c h m R a d ipa R1. destruct (reach_minv _ _ _ R) as (gh & M). pose proof (mv_inv _ _ _ M) as I.
  destruct (N.lt_ge_cases ipa (2 ^ ipa_bits (rd_ctx d))) as [Hi|Hi].
  2:{ unfold page_at, translate. destruct (N.ltb_spec ipa (2 ^ ipa_bits (rd_ctx d))); [lia|exact Logic.I]. }
  destruct (leaf_of _ _ _ _ I _ _ _ R1 Hi) as (l & b & e & LF). destruct (view_leaf _ _ _ _ I _ _ _ _ _ _ R1 Hi LF) as [E1 E2]. rewrite E1, E2.
  destruct (leaf_level _ _ _ _ I _ _ _ _ _ _ R1 LF) as (L1 & L2 & VE & _).
  destruct e; cbn [leaf_x view_e]; try exact Logic.I.
  - destruct VE as [_ [P1 _]]. destruct (oa_page l pa0 ipa ltac:(lia) P1) as [K1 K2] || destruct (oa_page l pa ipa ltac:(lia) P1) as [K1 K2].
    rewrite K1. split; [reflexivity|]. split; [exact K2|reflexivity].
  - destruct VE as [_ [[P1 _] _]]. destruct (oa_page l pa ipa ltac:(lia) P1) as [K1 K2].
    rewrite K1. do 2 eexists. split; [reflexivity|]. split; [exact K2|reflexivity].
Qed.

Lemma exclusive_xlat : forall c h m, reachable c h m -> forall a1 d1 a2 d2 i1 i2 l1 w1 o1 xn1 l2 w2 o2 xn2,
  realm m a1 d1 -> realm m a2 d2 ->
  translate (m_gr m) (rd_ctx d1) i1 = XOk l1 w1 o1 false xn1 -> translate (m_gr m) (rd_ctx d2) i2 = XOk l2 w2 o2 false xn2 ->
  o1 / 4096 = o2 / 4096 -> a1 = a2 /\ i1 / 4096 = i2 / 4096.
Proof.
  intros c h m R a1 d1 a2 d2 i1 i2 l1 w1 o1 xn1 l2 w2 o2 xn2 R1 R2 T1 T2 E.
  pose proof (translate_page _ _ _ R _ _ i1 R1) as P1. rewrite T1 in P1. pose proof (translate_page _ _ _ R _ _ i2 R2) as P2. rewrite T2 in P2.
  assert (EP : page_of o1 = page_of o2). { unfold page_of. lia. }
  eapply (exclusive _ _ _ R a1 d1 a2 d2 i1 i2 (page_of o1) R1 R2).
  - destruct P1 as [-> _]. reflexivity.
  - destruct P2 as [-> _]. cbn [page_granule]. congruence.
Qed.

Lemma reaches_data : forall c h m, reachable c h m -> forall a d ipa l w oa xn, realm m a d ->
  translate (m_gr m) (rd_ctx d) ipa = XOk l w oa false xn -> g_state (m_gr m (page_of oa)) = DATA.
Proof.
  intros c h m R a d ipa l w oa xn R1 T. pose proof (translate_page _ _ _ R _ _ ipa R1) as P. rewrite T in P. destruct P as (P & _).
  destruct (reach_minv _ _ _ R) as (gh & M). eapply (granule_dmap _ _ _ _ (mv_inv _ _ _ M)); [exact R1|]. rewrite P. reflexivity.
Qed.

Lemma ns_upper : forall c h m, reachable c h m -> forall a d ipa l w oa ns xn, realm m a d ->
  translate (m_gr m) (rd_ctx d) ipa = XOk l w oa ns xn ->
  if ns then ~ protected (rd_ctx d) ipa /\ ipa < 2 ^ ipa_bits (rd_ctx d) /\ xn = true else protected (rd_ctx d) ipa.
Proof.
  intros c h m R a d ipa l w oa ns xn R1 T. destruct (reach_minv _ _ _ R) as (gh & M). pose proof (mv_inv _ _ _ M) as I.
  pose proof (translate_page _ _ _ R _ _ ipa R1) as P. rewrite T in P.
  destruct ns.
  - destruct P as (at_ & ap & P & _ & ->). destruct (N.lt_ge_cases ipa (2 ^ ipa_bits (rd_ctx d))) as [Hi|Hi].
    2:{ unfold translate in T. destruct (N.ltb_spec ipa (2 ^ ipa_bits (rd_ctx d))); [lia|discriminate T]. }
    split; [|auto]. intro PR. destruct (leaf_of _ _ _ _ I _ _ _ R1 Hi) as (l0 & b & e & LF). destruct (view_leaf _ _ _ _ I _ _ _ _ _ _ R1 Hi LF) as [E1 _].
    rewrite E1 in P. destruct (leaf_level _ _ _ _ I _ _ _ _ _ _ R1 LF) as (L1 & L2 & VE & EO).
    apply (leaf_par _ _ _ _ I _ _ ipa l0 (ipa / 4096 / pg l0) R1 L1 eq_refl) in PR. destruct e; try discriminate P. lia.
  - destruct P as (P & _). assert (PG : page_granule (page_at (m_gr m) (rd_ctx d) ipa) = Some (page_of oa)) by (rewrite P; reflexivity).
    apply (granule_dmap _ _ _ _ I _ _ _ _ R1 PG).
Qed.

Lemma scrubbed : forall c h m, reachable c h m -> forall a, g_state (m_gr m a) = DELEGATED ->
  exists f, g_mem (m_gr m a) = CW f /\ forall i, f i = 0.
Proof.
  intros c h m R a S. destruct (reach_minv _ _ _ R) as (gh & M). rewrite (i_del _ _ _ _ (mv_inv _ _ _ M) a S). exists (fun _ => 0). split; reflexivity.
Qed.

(** ** Tables *)

Section Tables.
Variables (c : cfg) (gh : ghost) (G : N -> granule) (V : N -> bool).
Hypothesis I : Inv c gh G V.

Lemma of_own : forall rd d l t a, is_rd G rd d -> table_of G (rd_ctx d) l t a -> own gh a = Some (rd, l, t).
Proof.
  intros rd d l t a R H. induction H as [k Hk|l t a i w b _ IH Hi Hw Hd].
  - apply (i_root _ _ _ _ I _ _ _ R Hk).
  - rewrite (tt_read_entry _ _ _ _ I _ _ _ _ _ _ IH R Hi) in Hw. injection Hw as <-.
    pose proof (t_entries _ _ _ _ _ _ _ (inv_own _ _ _ _ I _ _ _ _ _ IH R) i Hi) as [VE _]. rewrite arch_decode_enc in Hd by exact VE.
    destruct (ent gh a i) eqn:E; try discriminate Hd. injection Hd as <-. apply (own_child _ _ _ _ I _ _ _ _ _ _ IH Hi E).
Qed.

Lemma own_of : forall rd d, is_rd G rd d -> forall l t a, own gh a = Some (rd, l, t) -> table_of G (rd_ctx d) l t a.
Proof.
  intros rd d R l t a O. pose proof (inv_own _ _ _ _ I _ _ _ _ _ O R) as T0. pose proof (t_level_ok _ _ _ _ _ _ _ T0) as L0. clear T0.
  remember (Z.to_nat (l - s2_sl (rd_ctx d))) as n eqn:Hn. revert l t a O L0 Hn.
  induction n as [|n IH]; intros l t a O L0 Hn; pose proof (inv_own _ _ _ _ I _ _ _ _ _ O R) as T;
    destruct (t_parent _ _ _ _ _ _ _ T) as [(L1 & K1 & A1)|(L1 & K1 & b & B1 & B2)]; try lia.
  - subst. apply to_root. exact K1.
  - pose proof (t_entries _ _ _ _ _ _ _ (inv_own _ _ _ _ I _ _ _ _ _ B1 R) _ (mod512_lt t)) as [VE _].
    pose proof (tt_read_entry _ _ _ _ I _ _ _ _ _ _ B1 R (mod512_lt t)) as RD. rewrite B2 in RD, VE.
    replace l with (l - 1 + 1)%Z by lia. rewrite (div512 t). eapply to_child; [|apply mod512_lt|exact RD|].
    + apply (IH (l - 1)%Z (t / 512) b B1); lia.
    + rewrite arch_decode_enc by exact VE. reflexivity.
Qed.

Lemma live_counted : forall lpa2 l e, (-1 <= l <= 3)%Z -> valid_entry lpa2 l e -> live_desc lpa2 l (enc lpa2 l e) = counted e.
Proof.
  intros lpa2 l e Hl VE. unfold live_desc. rewrite page_desc_enc, arch_decode_enc by assumption. destruct e; reflexivity.
Qed.

Lemma live_count_ref : forall rd d l t a, is_rd G rd d -> own gh a = Some (rd, l, t) ->
  g_ref (G a) = live_count G (enable_lpa2 (rd_ctx d)) l a.
Proof.
  intros rd d l t a R O. pose proof (inv_own _ _ _ _ I _ _ _ _ _ O R) as T. rewrite (t_ref _ _ _ _ _ _ _ T).
  pose proof (t_level_ok _ _ _ _ _ _ _ T) as L1. pose proof (ctx_sl _ (inv_ctx _ _ _ _ I _ _ R)) as SL.
  unfold cnt, live_count, idx512. f_equal.
  assert (E : forall f (g : nat -> bool) l, (forall i, In i l -> f (N.of_nat i) = g i) -> length (filter f (map N.of_nat l)) = length (filter g l)).
  { intros f g k. induction k as [|i k IH]; intro H; [reflexivity|]. cbn [map filter]. rewrite (H i) by (left; reflexivity).
    assert (IH' : length (filter f (map N.of_nat k)) = length (filter g k)) by (apply IH; intros; apply H; right; assumption).
    destruct (g i); cbn [length]; rewrite IH'; reflexivity. }
  apply E. intros i Hi. apply in_seq in Hi.
  assert (Hi' : N.of_nat i < 512) by lia.
  rewrite (tt_read_entry _ _ _ _ I _ _ _ _ _ _ O R Hi'). symmetry. apply live_counted; [lia|].
  apply (t_entries _ _ _ _ _ _ _ T _ Hi').
Qed.
End Tables.

Lemma rtt_counts : forall c h m, reachable c h m -> forall a d l t b, realm m a d -> table_of (m_gr m) (rd_ctx d) l t b ->
  g_ref (m_gr m b) = live_count (m_gr m) (enable_lpa2 (rd_ctx d)) l b.
Proof.
  intros c h m R a d l t b R1 T. destruct (reach_minv _ _ _ R) as (gh & M). pose proof (mv_inv _ _ _ M) as I.
  eapply live_count_ref; [exact I|exact R1|]. eapply of_own; eassumption.
Qed.

Lemma rd_counts : forall c h m, reachable c h m -> forall a d, realm m a d ->
  exists L, NoDup L /\ (forall b, In b L <-> exists r, rec_is m b r /\ r_g_rd r = a) /\ g_ref (m_gr m a) = N.of_nat (length L).
Proof.
  intros c h m R a d R1. destruct (reach_minv _ _ _ R) as (gh & M). pose proof (mv_inv _ _ _ M) as I.
  destruct (i_rd _ _ _ _ I a (proj1 R1)) as (d' & _ & _ & E). exists (recs gh a). split; [apply (i_recs_nodup _ _ _ _ I)|]. split; [|exact E].
  intro b. split.
  - intro H. destruct (i_recs _ _ _ _ I _ _ H) as (rc & K1 & K2). exists rc. split; assumption.
  - intros (r & [S1 M1] & <-). destruct (i_rec _ _ _ _ I b S1) as (_ & rc & d0 & M2 & _ & _ & K & _). rewrite M1 in M2. injection M2 as <-. exact K.
Qed.

Lemma exec_on : forall m p a, executes m p a <-> on (m_cpu m) p = Some a.
Proof.
  intros m p a. unfold executes, on. split.
  - intros (ru & -> & <-). reflexivity.
  - destruct (m_cpu m p) as [ru|]; [|discriminate]. intro E. injection E as <-. eauto.
Qed.

Lemma rec_counts : forall c h m, reachable c h m -> forall a r, rec_is m a r ->
  (g_ref (m_gr m a) = 1 /\ exists p, executes m p a) \/ (g_ref (m_gr m a) = 0 /\ forall p, ~ executes m p a).
Proof.
  intros c h m R a r [S1 M1]. destruct (reach_minv _ _ _ R) as (gh & M). pose proof (mv_inv _ _ _ M) as I.
  destruct (i_rec _ _ _ _ I a S1) as (LE & _). destruct (N.eq_dec (g_ref (m_gr m a)) 1) as [E|E].
  - left. split; [exact E|]. destruct (mv_used _ _ _ M a S1 E) as (p & K). exists p. apply exec_on, K.
  - right. split; [lia|]. intros p K. apply exec_on in K. destruct (mv_run _ _ _ M _ _ K) as (_ & _ & F & _). contradiction.
Qed.

Lemma other_counts : forall c h m, reachable c h m -> forall a,
  match g_state (m_gr m a) with RD | REC | RTT => g_ref (m_gr m a) <= 1023 | _ => g_ref (m_gr m a) = 0 end.
Proof.
  intros c h m R a. destruct (reach_minv _ _ _ R) as (gh & M). pose proof (mv_inv _ _ _ M) as I. pose proof (i_kinds _ _ _ _ I a) as K.
  destruct (g_state (m_gr m a)) eqn:S; try contradiction.
  - apply (i_ns _ _ _ _ I a S).
  - rewrite (i_del _ _ _ _ I a S). reflexivity.
  - destruct (i_rd _ _ _ _ I a S) as (d & _ & _ & ->). apply (i_recs_nodup _ _ _ _ I).
  - destruct (i_rec _ _ _ _ I a S) as (LE & _). lia.
  - apply (i_aux _ _ _ _ I a S).
  - apply (i_data _ _ _ _ I a S).
  - pose proof (i_rtt _ _ _ _ I a S) as O. destruct (own gh a) as [[[rd l] t]|] eqn:E; [|contradiction].
    destruct (i_own _ _ _ _ I _ _ _ _ E) as (d & _ & T). rewrite (t_ref _ _ _ _ _ _ _ T). pose proof (cnt_le (ent gh a)). lia.
Qed.

Lemma rtt_somewhere : forall c h m, reachable c h m -> forall b, g_state (m_gr m b) = RTT <->
  exists a d l t, realm m a d /\ table_of (m_gr m) (rd_ctx d) l t b.
Proof.
  intros c h m R b. destruct (reach_minv _ _ _ R) as (gh & M). pose proof (mv_inv _ _ _ M) as I. split.
  - intro S. pose proof (i_rtt _ _ _ _ I b S) as O. destruct (own gh b) as [[[rd l] t]|] eqn:E; [|contradiction].
    destruct (i_own _ _ _ _ I _ _ _ _ E) as (d & R1 & _). exists rd, d, l, t. split; [exact R1|]. eapply own_of; eassumption.
  - intros (a & d & l & t & R1 & T). eapply own_rtt; [exact I|]. eapply of_own; eassumption.
Qed.

Lemma rtt_once : forall c h m, reachable c h m -> forall b a1 d1 l1 t1 a2 d2 l2 t2, realm m a1 d1 -> realm m a2 d2 ->
  table_of (m_gr m) (rd_ctx d1) l1 t1 b -> table_of (m_gr m) (rd_ctx d2) l2 t2 b -> a1 = a2 /\ l1 = l2 /\ t1 = t2.
Proof.
  intros c h m R b a1 d1 l1 t1 a2 d2 l2 t2 R1 R2 T1 T2. destruct (reach_minv _ _ _ R) as (gh & M). pose proof (mv_inv _ _ _ M) as I.
  pose proof (of_own _ _ _ _ I _ _ _ _ _ R1 T1) as O1. pose proof (of_own _ _ _ _ I _ _ _ _ _ R2 T2) as O2. rewrite O1 in O2. injection O2 as -> -> ->. auto.
Qed.

Lemma rtt_ref_once : forall c h m, reachable c h m -> forall b a1 d1 l1 t1 b1 i1 w1 a2 d2 l2 t2 b2 i2 w2, realm m a1 d1 -> realm m a2 d2 ->
  table_of (m_gr m) (rd_ctx d1) l1 t1 b1 -> i1 < 512 -> tt_read (m_gr m) (b1 + 8 * i1) = Some w1 -> arch_decode (enable_lpa2 (rd_ctx d1)) l1 w1 = ATable b ->
  table_of (m_gr m) (rd_ctx d2) l2 t2 b2 -> i2 < 512 -> tt_read (m_gr m) (b2 + 8 * i2) = Some w2 -> arch_decode (enable_lpa2 (rd_ctx d2)) l2 w2 = ATable b ->
  b1 = b2 /\ i1 = i2.
Proof.
  intros c h m R b a1 d1 l1 t1 b1 i1 w1 a2 d2 l2 t2 b2 i2 w2 R1 R2 T1 I1 W1 D1 T2 I2 W2 D2.
  destruct (rtt_once _ _ _ R b a1 d1 (l1 + 1) (512 * t1 + i1) a2 d2 (l2 + 1) (512 * t2 + i2) R1 R2) as (-> & L & E); [econstructor; eassumption|econstructor; eassumption|].
  assert (d1 = d2) as <- by (destruct R1 as [_ K1], R2 as [_ K2]; congruence).
  assert (l1 = l2) as <- by lia. assert (t1 = t2 /\ i1 = i2) as [<- <-] by lia.
  destruct (reach_minv _ _ _ R) as (gh & M). pose proof (mv_inv _ _ _ M) as I. split; [|reflexivity].
  eapply own_unique; [exact I| |]; eapply of_own; eassumption.
Qed.

(** A table of the starting level is not referenced by a descriptor *)
Lemma root_not_ref : forall c h m, reachable c h m -> forall a1 d1 k a2 d2 l2 t2 b2 i2 w2, realm m a1 d1 -> realm m a2 d2 ->
  k < num_root_rtts (rd_ctx d1) ->
  table_of (m_gr m) (rd_ctx d2) l2 t2 b2 -> i2 < 512 -> tt_read (m_gr m) (b2 + 8 * i2) = Some w2 ->
  arch_decode (enable_lpa2 (rd_ctx d2)) l2 w2 <> ATable (g_rtt (rd_ctx d1) + k * 4096).
Proof.
  intros c h m R a1 d1 k a2 d2 l2 t2 b2 i2 w2 R1 R2 Hk T2 I2 W2 D2.
  destruct (rtt_once _ _ _ R (g_rtt (rd_ctx d1) + k * 4096) a1 d1 (s2_sl (rd_ctx d1)) k a2 d2 (l2 + 1) (512 * t2 + i2) R1 R2) as (-> & L & _);
    [constructor; exact Hk|econstructor; eassumption|].
  assert (d1 = d2) as <- by (destruct R1 as [_ K1], R2 as [_ K2]; congruence).
  destruct (reach_minv _ _ _ R) as (gh & M). pose proof (mv_inv _ _ _ M) as I.
  pose proof (of_own _ _ _ _ I _ _ _ _ _ R2 T2) as O. pose proof (t_level_ok _ _ _ _ _ _ _ (inv_own _ _ _ _ I _ _ _ _ _ O R2)). lia.
Qed.

(** ** Identities *)

Lemma vmids : forall c h m, reachable c h m ->
  (forall a1 d1 a2 d2, realm m a1 d1 -> realm m a2 d2 -> vmid (rd_ctx d1) = vmid (rd_ctx d2) -> a1 = a2) /\
  (forall v, m_vmids m v = true <-> exists a d, realm m a d /\ vmid (rd_ctx d) = v) /\
  (forall a d, realm m a d -> vmid (rd_ctx d) < if c_vmid16 c then 2 ^ 16 else 2 ^ 8).
Proof.
  intros c h m R. destruct (reach_minv _ _ _ R) as (gh & M). pose proof (mv_inv _ _ _ M) as I. split; [|split].
  - intros a1 d1 a2 d2 R1 R2 E. apply (i_vmid_inj _ _ _ _ I _ _ _ _ R1 R2 E).
  - intro v. split.
    + intro H. destruct (i_vmid _ _ _ _ I v H) as (a & d & K). eauto.
    + intros (a & d & R1 & <-). apply (i_vmid_set _ _ _ _ I _ _ R1).
  - intros a d R1. apply (inv_rd_ok _ _ _ _ I _ _ R1).
Qed.

Lemma one_pe : forall c h m, reachable c h m -> forall p q a, executes m p a -> executes m q a -> p = q.
Proof.
  intros c h m R p q a E1 E2. destruct (reach_minv _ _ _ R) as (gh & M). apply exec_on in E1. apply exec_on in E2. apply (mv_once _ _ _ M _ _ _ E1 E2).
Qed.

Lemma rec_realm : forall c h m, reachable c h m -> forall a r, rec_is m a r -> exists d, realm m (r_g_rd r) d /\ rec_ok c d r.
Proof.
  intros c h m R a r [S1 M1]. destruct (reach_minv _ _ _ R) as (gh & M). pose proof (mv_inv _ _ _ M) as I.
  destruct (i_rec _ _ _ _ I a S1) as (_ & rc & d & M2 & R1 & RO & _). rewrite M1 in M2. injection M2 as <-. exists d. split; assumption.
Qed.

Lemma rec_idx : forall c h m, reachable c h m -> forall a1 r1 a2 r2, rec_is m a1 r1 -> rec_is m a2 r2 -> r_g_rd r1 = r_g_rd r2 -> r_idx r1 = r_idx r2 -> a1 = a2.
Proof.
  intros c h m R a1 r1 a2 r2 R1 R2 E1 E2. destruct (reach_minv _ _ _ R) as (gh & M). apply (i_idx _ _ _ _ (mv_inv _ _ _ M) _ _ _ _ R1 R2 E1 E2).
Qed.

(** ** The MMU *)

Lemma mmu_tables : forall c h m, reachable c h m -> forall a r d, rec_is m a r -> realm m (r_g_rd r) d -> forall ipa,
  rec_xlat (m_gr m) r ipa = translate (m_gr m) (rd_ctx d) ipa.
Proof.
  intros c h m R a r d R1 R2 ipa. destruct (rec_realm _ _ _ R _ _ R1) as (d' & R2' & RO).
  assert (d' = d) as -> by (destruct R2 as [_ K1], R2' as [_ K2]; congruence).
  destruct RO as (_ & _ & E1 & E2 & _). unfold rec_xlat. rewrite E1, E2.
  destruct (reach_minv _ _ _ R) as (gh & M). pose proof (mv_inv _ _ _ M) as I.
  destruct (N.lt_ge_cases ipa (2 ^ ipa_bits (rd_ctx d))) as [Hi|Hi].
  - destruct (leaf_of _ _ _ _ I _ _ _ R2 Hi) as (l & b & e & LF). destruct (view_leaf _ _ _ _ I _ _ _ _ _ _ R2 Hi LF) as [_ ->].
    apply (stage2_leaf _ _ _ _ I _ _ _ _ _ _ R2 (mv_roots _ _ _ M _ _ R2) Hi LF).
  - rewrite (stage2_out _ _ _ _ I _ _ _ R2 Hi). unfold translate. destruct (N.ltb_spec ipa (2 ^ ipa_bits (rd_ctx d))); [lia|reflexivity].
Qed.

Lemma rec_number : forall c h m, reachable c h m -> forall a r, rec_is m a r ->
  r_idx r = realm_index (r_sys r VMPIDR_EL2) /\ exists d, realm m (r_g_rd r) d /\ r_idx r < rd_rec_count d.
Proof.
  intros c h m R a r R1. destruct (rec_realm _ _ _ R _ _ R1) as (d & R2 & RO). destruct RO as (_ & LT & _ & _ & (mp & V & E1 & E2) & _).
  split; [|exists d; auto]. rewrite E2, vmpidr_fields, <- E1. apply to_idx_fields.
Qed.
