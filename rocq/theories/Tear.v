(** Every realm can be taken apart (C36). *)
From Coq Require Import NArith ZArith List Bool Lia ZifyBool ZifyN.
From Verif Require Import Bits S2tte S2tteFacts State Granule Wp RecFields Measure RmiRtt RmiRealm Psci RmiRec Gic Esr Rsi RecRun
  Arch ArchFacts Mmu Machine Spec SpecStep SpecExit SpecRec SpecSafe SpecTables SpecTear Inv InvTree MmuFacts InvStep InvStep2 InvStep3 Effects Frames CmdLib CmdData CmdRipas
  CmdRtt CmdFold CmdRtt2 CmdNs CmdRec CmdRealm CmdRsi2 CmdRun CmdRun2 CmdAll MInv MStep View StepView Own ExitFacts Step Step2 Step3 Step10 Tables Tables2 Tables3 Safe.
Import ListNotations.
Local Open Scope N_scope.

(* ------------------------------------------------------------------ *)
(** * What single effects say *)

Lemma release_facts : forall c gh G V rd n e e' pa gh' G' V', geff c gh G V (LRelease rd n e e' pa) gh' G' V' -> exists a t i,
  n = 512 * t + i /\ i < 512 /\ own gh a = Some (rd, 3%Z, t) /\ e = ent gh a i /\ asg e = Some pa /\ asg e' = None /\
  gh' = set_dmap (set_ent gh a (upd (ent gh a) i e')) pa None /\
  g_state (G' a) = RTT /\ G' pa = mkG DELEGATED 0 czero /\ (forall z, z <> a -> z <> pa -> G' z = G z).
Proof. intros c gh G V rd n e e' pa gh' G' V' H. inversion H as [| |? t i a|? ? ? ? ?|? ? ? ? ?|? ? ? ? ?| | | | | | |]; subst. exists a, t, i. repeat match goal with E : G' _ = _ |- _ => rewrite E end. auto 12. Qed.

Lemma unlink_facts : forall c gh G V rd l n e' b gh' G' V', geff c gh G V (LDestroy rd l n e' b) gh' G' V' -> exists a t i,
  n = 512 * t + i /\ i < 512 /\ own gh a = Some (rd, l, t) /\ ent gh a i = ETable b /\ asg e' = None /\ g_ref (G b) = 0 /\
  gh' = set_own (set_ent gh a (upd (ent gh a) i e')) b None /\
  g_state (G' a) = RTT /\ G' b = mkG DELEGATED 0 czero /\ (forall z, z <> a -> z <> b -> G' z = G z).
Proof.
  intros c gh G V rd l n e' b gh' G' V' H. inversion H as [| |? t i a|? ? ? ? ?|? ? ? ? ?|? ? t i a d| | | | | | |]; subst. exists a, t, i.
  repeat match goal with E : G' _ = _ |- _ => rewrite E end. destruct (512 * t + i <? parn (rd_ctx d) l); auto 12.
Qed.

Lemma link_facts : forall c gh G V rd l n e b gh' G' V', geff c gh G V (LAttach rd l n e b) gh' G' V' -> exists a t i,
  n = 512 * t + i /\ i < 512 /\ own gh a = Some (rd, l, t) /\ e = ent gh a i /\ g_state (G b) = DELEGATED /\
  gh' = set_own (set_ent (set_ent gh a (upd (ent gh a) i (ETable b))) b (unfold_e (l + 1) e)) b (Some (rd, (l + 1)%Z, n)) /\
  g_state (G' a) = RTT /\ g_state (G' b) = RTT /\ (forall z, z <> a -> z <> b -> G' z = G z).
Proof.
  intros c gh G V rd l n e b gh' G' V' H. inversion H as [| |? t i a|? ? t i a|? ? ? ? ?|? ? ? ? ?| | | | | | |]; subst. exists a, t, i.
  repeat match goal with E : G' _ = _ |- _ => rewrite E end. auto 12.
Qed.

Lemma rec_gone_facts : forall c gh G V rd r rc gh' G' V', geff c gh G V (LRecDestroy rd r rc) gh' G' V' -> exists d,
  rd = r_g_rd rc /\ is_rec G r rc /\ is_rd G rd d /\ is_rd G' rd d /\ G' r = mkG DELEGATED 0 czero /\
  (forall z, In z (r_aux rc) -> G' z = mkG DELEGATED 0 czero) /\ (forall z, z <> rd -> z <> r -> ~ In z (r_aux rc) -> G' z = G z) /\
  gh' = set_auxs (set_recs gh rd (remove N.eq_dec r (recs gh rd))) (r_aux rc) None.
Proof.
  intros c gh G V rd r rc gh' G' V' H. inversion H; subst. exists d. unfold is_rd.
  repeat match goal with E : G' _ = mkG RD _ _ |- _ => rewrite E end. auto 12.
Qed.

Lemma realm_gone_facts : forall c gh G V rd d gh' G' V', geff c gh G V (LRealmDestroy rd d) gh' G' V' ->
  is_rd G rd d /\ G' rd = mkG DELEGATED 0 czero /\
  (forall k, k < num_root_rtts (rd_ctx d) -> G' (g_rtt (rd_ctx d) + k * 4096) = mkG DELEGATED 0 czero) /\
  (forall z, z <> rd -> root_idx (g_rtt (rd_ctx d)) (num_root_rtts (rd_ctx d)) z = None -> G' z = G z).
Proof. intros c gh G V rd d gh' G' V' H. inversion H; subst. auto. Qed.

Lemma one_effect : forall c gh G V lab gh' G' V', geffs c gh G V [lab] gh' G' V' -> exists G1 V1, geff c gh G V lab gh' G1 V1 /\ forall z, G' z = G1 z.
Proof. intros c gh G V lab gh' G' V' H. inversion H as [|? ? ? ? gh1 G1 V1 ? ? ? ? X1 X2]; subst. inversion X2; subst. eauto. Qed.

(* ------------------------------------------------------------------ *)
(** * Counting the granules that are in use *)

Definition used (g : granule) : bool := match g_state g with NS | DELEGATED => false | _ => true end.
Fixpoint uses (G : N -> granule) (n : nat) : nat :=
  match n with O => O | S n => ((if used (G (N.of_nat n)) then 1 else 0) + uses G n)%nat end.

Lemma uses_le : forall G G' n, (forall z, used (G' z) = true -> used (G z) = true) -> (uses G' n <= uses G n)%nat.
Proof.
  intros G G' n H. induction n as [|n IH]; cbn [uses]; [lia|]. specialize (H (N.of_nat n)).
  destruct (used (G' (N.of_nat n))); [rewrite H by reflexivity|destruct (used (G (N.of_nat n)))]; lia.
Qed.
Lemma uses_lt : forall G G' n a, (forall z, used (G' z) = true -> used (G z) = true) -> used (G a) = true -> used (G' a) = false ->
  (N.to_nat a < n)%nat -> (uses G' n < uses G n)%nat.
Proof.
  intros G G' n a H A A'. induction n as [|n IH]; cbn [uses]; intro L; [lia|]. destruct (Nat.eq_dec (N.to_nat a) n) as [E|E].
  - replace (N.of_nat n) with a by lia. rewrite A, A'. pose proof (uses_le G G' n H). lia.
  - specialize (IH ltac:(lia)). specialize (H (N.of_nat n)). destruct (used (G' (N.of_nat n))); [rewrite H by reflexivity|destruct (used (G (N.of_nat n)))]; lia.
Qed.
Lemma uses_one : forall G G' n b, (forall z, z <> b -> used (G' z) = true -> used (G z) = true) -> (uses G' n <= uses G n + 1)%nat.
Proof.
  intros G G' n b H. enough (K : (uses G' n <= uses G n + (if (Nat.ltb (N.to_nat b) n) then 1 else 0))%nat) by (destruct (Nat.ltb (N.to_nat b) n); lia).
  induction n as [|n IH]; cbn [uses]; [lia|]. destruct (N.eq_dec (N.of_nat n) b) as [E|E].
  - subst b. rewrite Nnat.Nat2N.id in *. replace (Nat.ltb n n) with false in IH by (symmetry; apply Nat.ltb_irrefl).
    replace (Nat.ltb n (S n)) with true by (symmetry; apply Nat.ltb_lt; lia).
    destruct (used (G' (N.of_nat n))), (used (G (N.of_nat n))); lia.
  - specialize (H _ E). assert (X : (Nat.ltb (N.to_nat b) n = true -> Nat.ltb (N.to_nat b) (S n) = true)).
    { rewrite !Nat.ltb_lt. lia. }
    destruct (Nat.ltb (N.to_nat b) n); [rewrite X by reflexivity|destruct (Nat.ltb (N.to_nat b) (S n))];
      (destruct (used (G' (N.of_nat n))); [rewrite H by reflexivity|destruct (used (G (N.of_nat n)))]; lia).
Qed.

(* ------------------------------------------------------------------ *)
(** * One command *)

Section Tear.
Variables (c : cfg) (h : hw) (p rd : N) (d : rdesc).

Definition has (gh : ghost) (a : N) : Prop :=
  (exists l t, own gh a = Some (rd, l, t)) \/ (exists n, dmap gh a = Some (rd, n)) \/ In a (recs gh rd) \/
  (exists r, auxo gh a = Some r /\ In r (recs gh rd)).

Record T (gh : ghost) (m : mstate) : Prop := {
  tt_re : reachable c h m;
  tt_mi : MInv c gh m;
  tt_cpu : m_cpu m p = None;
  tt_rd : is_rd (m_gr m) rd d;
  tt_idle : forall r, In r (recs gh rd) -> forall q, ~ executes m q r
}.

Record Kept (gh : ghost) (m : mstate) (gh' : ghost) (m' : mstate) : Prop := {
  k_has : forall a, has gh a -> has gh' a \/ g_state (m_gr m' a) = DELEGATED;
  k_not : forall a, a <> rd -> ~ has gh a -> (has gh' a /\ g_state (m_gr m a) = DELEGATED) \/ (m_gr m' a = m_gr m a /\ ~ has gh' a)
}.

Definition Goes (gh : ghost) (m : mstate) (gh' : ghost) (m' : mstate) : Prop :=
  (exists l, succeed c h p m l m' /\ Forall dismantles l) /\ T gh' m' /\ Kept gh m gh' m'.

Lemma has_state : forall gh m a, MInv c gh m -> has gh a -> g_state (m_gr m a) <> DELEGATED /\ g_state (m_gr m a) <> RD /\ used (m_gr m a) = true.
Proof.
  intros gh m a M H. pose proof (mv_inv _ _ _ M) as I. unfold used.
  destruct H as [(l & t & O)|[(n & D)|[H|(r & A & _)]]].
  - rewrite (own_rtt _ _ _ _ I _ _ _ _ O). repeat split; discriminate.
  - rewrite (proj1 (i_dmap _ _ _ _ I _ _ _ D)). repeat split; discriminate.
  - destruct (i_recs _ _ _ _ I _ _ H) as (rc & [S _] & _). rewrite S. repeat split; discriminate.
  - rewrite (proj1 (i_auxo _ _ _ _ I _ _ A)). repeat split; discriminate.
Qed.

Lemma kept_trans : forall gh m gh1 m1 gh2 m2, MInv c gh m -> MInv c gh2 m2 -> Kept gh m gh1 m1 -> Kept gh1 m1 gh2 m2 ->
  (forall a, g_state (m_gr m1 a) = DELEGATED -> ~ has gh1 a) -> m_gr m2 rd = m_gr m2 rd -> is_rd (m_gr m1) rd d -> Kept gh m gh2 m2.
Proof.
  intros gh m gh1 m1 gh2 m2 M M2 [A1 B1] [A2 B2] ND _ R1. split.
  - intros a H. destruct (A1 a H) as [H1|D1]; [apply A2, H1|].
    assert (a <> rd) by (intros ->; destruct R1; congruence).
    destruct (B2 a H0 (ND a D1)) as [(H2 & _)|(E & _)]; [left; exact H2|right; rewrite E; exact D1].
  - intros a na H. destruct (B1 a na H) as [(H1 & D0)|(E1 & N1)].
    + destruct (A2 a H1) as [H2|D2]; [left; auto|]. right.
      rewrite (i_del _ _ _ _ (mv_inv _ _ _ M) _ D0), (i_del _ _ _ _ (mv_inv _ _ _ M2) _ D2). split; [reflexivity|].
      intro H2. exact (proj1 (has_state _ _ _ M2 H2) D2).
    + destruct (B2 a na N1) as [(H2 & D1)|(E2 & N2)]; [left; split; [exact H2|rewrite <- E1; exact D1]|right; split; [congruence|exact N2]].
Qed.

Lemma goes_refl : forall gh m, T gh m -> Goes gh m gh m.
Proof. intros gh m H. split; [exists []; split; constructor|]. split; [exact H|]. split; auto. Qed.
Lemma succeed_app : forall m l1 m1 l2 m2, succeed c h p m l1 m1 -> succeed c h p m1 l2 m2 -> succeed c h p m (l1 ++ l2) m2.
Proof. intros m l1 m1 l2 m2 H. induction H; intro K; [exact K|]. cbn [app]. econstructor; eauto. Qed.
Lemma goes_trans : forall gh m gh1 m1 gh2 m2, T gh m -> Goes gh m gh1 m1 -> Goes gh1 m1 gh2 m2 -> Goes gh m gh2 m2.
Proof.
  intros gh m gh1 m1 gh2 m2 H ((l1 & S1 & F1) & T1 & K1) ((l2 & S2 & F2) & T2 & K2).
  split; [exists (l1 ++ l2); split; [eapply succeed_app; eassumption|apply Forall_app; auto]|]. split; [exact T2|].
  eapply kept_trans; [apply H|apply T2|exact K1|exact K2| |reflexivity|apply T1].
  intros a D X. exact (proj1 (has_state _ _ _ (tt_mi _ _ T1) X) D).
Qed.

Lemma runs : forall gh m k, T gh m -> dismantles k -> ready c m k -> exists m' r gh' labs inv,
  step c h m (OCmd p k) = RDone m' (Reply r) /\ x0 r = 0 /\ reachable c h m' /\ MInv c gh' m' /\ m_cpu m' = m_cpu m /\
  geffs c gh (m_gr m) (m_vmids m) labs gh' (m_gr m') (m_vmids m') /\ cmd_eff c gh (m_gr m) (m_vmids m) k r gh' labs inv.
Proof.
  intros gh m k H DK RD. destruct H as [Re M Cp _ _].
  assert (OK : op_ok (OCmd p k)) by (destruct k; try contradiction; exact Logic.I).
  assert (NS : ~ stops c m k) by (intro X; destruct X; contradiction).
  assert (LK : listed k = true) by (destruct k; try contradiction; reflexivity).
  destruct (harmless_step c h m (OCmd p k) Re OK) as (A & B). specialize (B NS). unfold stuck, stopped in A, B.
  assert (ST : exists m' r, step c h m (OCmd p k) = RDone m' (Reply r)).
  { cbn [step] in *. rewrite Cp in *. destruct (run (cmd_prog c (m_gr m) k) (cpu_state m p)) as [r s| |]; [eauto|exfalso; apply B; reflexivity|exfalso; apply A; auto]. }
  destruct ST as (m' & r & ST). pose proof (conj Re (conj OK ST) : next c h m (OCmd p k) m' (Reply r)) as NX.
  destruct (minv_step c h gh m (proj1 Re) M _ _ _ OK ST) as (gh' & labs & M' & GE & _ & r0 & inv & E & K & _ & EC & _). injection E as <-.
  exists m', r, gh', labs, inv. split; [exact ST|]. split; [apply (proj1 (ready_step _ _ _ _ _ _ _ NX LK)), RD|].
  split; [exact (next_reachable _ _ _ _ _ _ NX)|]. auto.
Qed.

Lemma succeed_one : forall m k r m', step c h m (OCmd p k) = RDone m' (Reply r) -> x0 r = 0 -> dismantles k ->
  exists l, succeed c h p m l m' /\ Forall dismantles l.
Proof. intros. exists [k]. split; [econstructor; [eassumption|assumption|constructor]|auto]. Qed.

Lemma executes_same : forall m m' q r, m_cpu m' = m_cpu m -> executes m' q r -> executes m q r.
Proof. intros m m' q r E (ru & A & B). exists ru. rewrite <- E. auto. Qed.

Lemma asg_not_table : forall e pa, asg e = Some pa -> is_table_e e = false.
Proof. intros e pa H. destruct e; try discriminate; reflexivity. Qed.

(** The place of an entry *)
Lemma entry_place : forall gh m a l t i, T gh m -> own gh a = Some (rd, l, t) -> i < 512 -> 512 * t + i < ipan (rd_ctx d) l ->
  let ipa := (512 * t + i) * ms l in let e := ent gh a i in
  ipa < 2 ^ ipa_bits (rd_ctx d) /\ ipa / ms l = 512 * t + i /\ ipa mod ms l = 0 /\ (s2_sl (rd_ctx d) <= l <= 3)%Z /\ (-1 <= l <= 3)%Z /\
  valid_entry (enable_lpa2 (rd_ctx d)) l e /\
  exists b, entry_at (m_gr m) (rd_ctx d) ipa l = Some (b, l, enc (enable_lpa2 (rd_ctx d)) l e).
Proof.
  intros gh m a l t i H O Hi Hn ipa e. pose proof (mv_inv _ _ _ (tt_mi _ _ H)) as I. pose proof (tt_rd _ _ H) as R.
  pose proof (inv_own _ _ _ _ I _ _ _ _ _ O R) as TO. pose proof (t_level_ok _ _ _ _ _ _ _ TO) as L1. pose proof (inv_ctx _ _ _ _ I _ _ R) as X.
  pose proof (ms_pos l) as MP. assert (D : ipa / ms l = 512 * t + i) by (apply N.div_mul; lia).
  assert (Ha : ipa < 2 ^ ipa_bits (rd_ctx d)) by (apply (num_ipan _ X l ipa L1); rewrite D; exact Hn).
  assert (O2 : own gh a = Some (rd, l, ipa / ms l / 512)) by (rewrite D, div512_of by exact Hi; exact O).
  destruct (place_entry _ _ _ (tt_mi _ _ H) rd d a l ipa O2 R Ha) as (Hl & VE & b & EA). rewrite D, mod512_of in VE, EA by exact Hi.
  split; [exact Ha|]. split; [exact D|]. split; [apply N.mod_mul; lia|]. split; [exact L1|]. split; [exact Hl|]. split; [exact VE|]. exists b. exact EA.
Qed.

Lemma parn_ipan : forall l n, n < parn (rd_ctx d) l -> n < ipan (rd_ctx d) l.
Proof. intros l n H. unfold ipan. lia. Qed.

Lemma asg_facts : forall gh m a l t i pa, T gh m -> own gh a = Some (rd, l, t) -> i < 512 -> asg (ent gh a i) = Some pa ->
  512 * t + i < parn (rd_ctx d) l /\ block_level l /\ pa_ok (enable_lpa2 (rd_ctx d)) l pa /\
  dmap gh pa = Some (rd, (512 * t + i) * pg l).
Proof.
  intros gh m a l t i pa H O Hi A. pose proof (mv_inv _ _ _ (tt_mi _ _ H)) as I. pose proof (tt_rd _ _ H) as R.
  pose proof (t_entries _ _ _ _ _ _ _ (inv_own _ _ _ _ I _ _ _ _ _ O R) i Hi) as [VE EO].
  assert (K : 512 * t + i < parn (rd_ctx d) l /\ block_level l /\ pa_ok (enable_lpa2 (rd_ctx d)) l pa /\
    forall q, q / pg l = 512 * t + i -> dmap gh (pa + q mod pg l * 4096) = Some (rd, q)).
  { destruct (ent gh a i); try discriminate A; injection A as ->; cbn in VE; tauto. }
  destruct K as (K1 & K2 & K3 & K4). split; [exact K1|]. split; [exact K2|]. split; [exact K3|].
  specialize (K4 ((512 * t + i) * pg l)). pose proof (pg_pos l). rewrite N.div_mul, N.mod_mul in K4 by lia.
  specialize (K4 eq_refl). rewrite N.mul_0_l, N.add_0_r in K4. exact K4.
Qed.

Lemma no_asg_own : forall gh m a l t, T gh m -> own gh a = Some (rd, l, t) -> dmap gh a = None.
Proof.
  intros gh m a l t H O. pose proof (mv_inv _ _ _ (tt_mi _ _ H)) as I. eapply dmap_none; [exact I|]. rewrite (own_rtt _ _ _ _ I _ _ _ _ O). discriminate.
Qed.

(** DATA_DESTROY *)
Lemma go_release : forall gh m a t i pa, T gh m -> own gh a = Some (rd, 3%Z, t) -> i < 512 -> asg (ent gh a i) = Some pa ->
  exists gh' m' e', Goes gh m gh' m' /\ gh' = set_dmap (set_ent gh a (upd (ent gh a) i e')) pa None /\ asg e' = None /\
    m_gr m' pa = mkG DELEGATED 0 czero /\ g_state (m_gr m' a) = RTT /\ (forall z, z <> a -> z <> pa -> m_gr m' z = m_gr m z).
Proof.
  intros gh m a t i pa H O Hi A. pose proof (mv_inv _ _ _ (tt_mi _ _ H)) as I. pose proof (tt_rd _ _ H) as R.
  destruct (asg_facts _ _ _ _ _ _ _ H O Hi A) as (Pn & BL & PA & DM).
  destruct (entry_place _ _ _ _ _ _ H O Hi (parn_ipan _ _ Pn)) as (Ha & Dv & Md & L1 & L2 & VE & b & EA).
  set (ipa := (512 * t + i) * ms 3) in *. change (ms 3) with 4096 in Dv, Md.
  assert (PR : protected (rd_ctx d) ipa) by (apply (num_parn _ (inv_ctx _ _ _ _ I _ _ R) 3 ipa L1); change (ms 3) with 4096; rewrite Dv; exact Pn).
  assert (RD : ready c m (KDataDestroy rd ipa)).
  { split; [exists d; split; [exact R|split; assumption]|]. split; [exact Logic.I|]. exists d. split; [exact R|]. eexists _, _. split; [exact EA|].
    cbn [wanted]. apply desc_asg; try assumption. unfold asg_e. rewrite A. reflexivity. }
  destruct (runs _ _ _ H (Logic.I : dismantles (KDataDestroy rd ipa)) RD) as (m' & r & gh' & labs & inv & ST & Z0 & Re & M' & EC & GE & K).
  cbn [cmd_eff] in K. destruct K as [(NZ & _)|(_ & K)]; [contradiction|].
  destruct K as (d1 & e & wi & R1 & _ & _ & As & -> & _). rewrite Dv in GE. destruct (one_effect _ _ _ _ _ _ _ _ GE) as (G1 & V1 & X & EG).
  destruct (release_facts _ _ _ _ _ _ _ _ _ _ _ _ X) as (a1 & t1 & i1 & En & Hi1 & O1 & Ee & A1 & A2 & Eg & G1a & G1p & G1o).
  assert (t1 = t /\ i1 = i) as (-> & ->) by lia. assert (a1 = a) by (eapply own_unique; eassumption). subst a1.
  assert (x1 r = pa) by (rewrite Ee in A1; congruence).
  set (e' := unassign_e e) in *. clearbody e'. rewrite H0 in *. exists gh', m', e'.
  assert (NR : a <> rd) by (intros ->; pose proof (own_rtt _ _ _ _ I _ _ _ _ O); destruct R; congruence).
  assert (NP : pa <> rd) by (intros ->; pose proof (proj1 (i_dmap _ _ _ _ I _ _ _ DM)); destruct R; congruence).
  split; [|rewrite !EG; split; [exact Eg|]; split; [exact A2|]; split; [exact G1p|]; split; [exact G1a|]; intros; rewrite EG; auto].
  split; [refine (succeed_one _ _ _ _ ST Z0 _); exact Logic.I|]. split.
  - split; [exact Re|exact M'|rewrite EC; apply H|unfold is_rd; rewrite EG, G1o by auto; exact R|].
    intros r0 Hr q Ex. rewrite Eg in Hr. exact (tt_idle _ _ H r0 Hr q (executes_same _ _ _ _ EC Ex)).
  - assert (NPa : ~ has gh' pa).
    { intro X1. destruct (has_state _ _ _ M' X1) as (X2 & _). apply X2. rewrite EG, G1p. reflexivity. }
    assert (HS : forall z, z <> pa -> has gh' z <-> has gh z).
    { intros z nz. rewrite Eg. unfold has, set_dmap, set_ent. cbn [own dmap recs auxo]. rewrite upd_other by exact nz. reflexivity. }
    split.
    + intros z Hz. destruct (N.eq_dec z pa) as [->|nz]; [right; rewrite EG, G1p; reflexivity|left; apply HS; assumption].
    + intros z nr Hz. right. destruct (N.eq_dec z pa) as [->|nz]; [exfalso; apply Hz; right; left; eauto|].
      destruct (N.eq_dec z a) as [->|na]; [exfalso; apply Hz; left; eauto|]. rewrite EG, G1o by assumption. split; [reflexivity|]. rewrite HS; assumption.
Qed.

(** RTT_DESTROY *)
Lemma sgn_level : forall l, (-1 <= l < 3)%Z -> sgn64 (Z.to_N (l + 1)) = (l + 1)%Z.
Proof. intros l Hl. unfold sgn64. destruct (N.ltb_spec (Z.to_N (l + 1)) (2 ^ 63)); lia. Qed.

Lemma go_unlink : forall gh m a l t i b, T gh m -> own gh a = Some (rd, l, t) -> i < 512 -> ent gh a i = ETable b -> g_ref (m_gr m b) = 0 ->
  exists gh' m' e', Goes gh m gh' m' /\ gh' = set_own (set_ent gh a (upd (ent gh a) i e')) b None /\ asg e' = None /\
    m_gr m' b = mkG DELEGATED 0 czero /\ g_state (m_gr m' a) = RTT /\ (forall z, z <> a -> z <> b -> m_gr m' z = m_gr m z).
Proof.
  intros gh m a l t i b H O Hi A RZ. pose proof (mv_inv _ _ _ (tt_mi _ _ H)) as I. pose proof (tt_rd _ _ H) as R.
  pose proof (t_entries _ _ _ _ _ _ _ (inv_own _ _ _ _ I _ _ _ _ _ O R) i Hi) as EO. rewrite A in EO. destruct EO as (_ & Pn & OB).
  destruct (own_child _ _ _ _ I _ _ _ _ _ _ O Hi A) as (_ & L3).
  destruct (entry_place _ _ _ _ _ _ H O Hi Pn) as (Ha & Dv & Md & L1 & L2 & VE & b0 & EA).
  set (ipa := (512 * t + i) * ms l) in *.
  assert (SG : (sgn64 (Z.to_N (l + 1)) - 1 = l)%Z) by (rewrite sgn_level; lia).
  assert (SG1 : sgn64 (Z.to_N (l + 1)) = (l + 1)%Z) by (apply sgn_level; lia).
  assert (RD : ready c m (KRttDestroy rd ipa (Z.to_N (l + 1)))).
  { split; [|split; [exact Logic.I|]].
    - exists d. rewrite SG, SG1. split; [exact R|]. split; [lia|]. split; [exact Ha|]. rewrite ms_lsb by exact L2. exact Md.
    - cbn [place_ok walks]. unfold place_ok. cbn [walks]. rewrite SG. exists d. split; [exact R|]. eexists _, _. split; [exact EA|].
      cbn [wanted]. rewrite SG, SG1. exists b. split; [apply desc_table; assumption|].
      rewrite <- RZ. symmetry. eapply (live_count_ref _ _ _ _ I); eassumption. }
  destruct (runs _ _ _ H (Logic.I : dismantles (KRttDestroy rd ipa (Z.to_N (l + 1)))) RD) as (m' & r & gh' & labs & inv & ST & Z0 & Re & M' & EC & GE & K).
  cbn [cmd_eff] in K. cbv zeta in K. destruct K as [(NZ & _)|(_ & K)]; [contradiction|]. rewrite SG in K.
  destruct K as (d1 & e' & wi & R1 & _ & _ & _ & -> & _). rewrite Dv in GE. destruct (one_effect _ _ _ _ _ _ _ _ GE) as (G1 & V1 & X & EG).
  destruct (unlink_facts _ _ _ _ _ _ _ _ _ _ _ _ X) as (a1 & t1 & i1 & En & Hi1 & O1 & Ee & A2 & _ & Eg & G1a & G1p & G1o).
  assert (t1 = t /\ i1 = i) as (-> & ->) by lia. assert (a1 = a) by (eapply own_unique; eassumption). subst a1.
  assert (x1 r = b) by congruence. rewrite H0 in *. exists gh', m', e'.
  assert (NR : a <> rd) by (intros ->; pose proof (own_rtt _ _ _ _ I _ _ _ _ O); destruct R; congruence).
  assert (NP : b <> rd) by (intros ->; pose proof (own_rtt _ _ _ _ I _ _ _ _ OB); destruct R; congruence).
  split; [|rewrite !EG; split; [exact Eg|]; split; [exact A2|]; split; [exact G1p|]; split; [exact G1a|]; intros; rewrite EG; auto].
  split; [refine (succeed_one _ _ _ _ ST Z0 _); exact Logic.I|]. split.
  - split; [exact Re|exact M'|rewrite EC; apply H|unfold is_rd; rewrite EG, G1o by auto; exact R|].
    intros r0 Hr q Ex. rewrite Eg in Hr. exact (tt_idle _ _ H r0 Hr q (executes_same _ _ _ _ EC Ex)).
  - assert (HS : forall z, z <> b -> has gh' z <-> has gh z).
    { intros z nz. rewrite Eg. unfold has, set_own, set_ent. cbn [own dmap recs auxo]. rewrite upd_other by exact nz. reflexivity. }
    split.
    + intros z Hz. destruct (N.eq_dec z b) as [->|nz]; [right; rewrite EG, G1p; reflexivity|left; apply HS; assumption].
    + intros z nr Hz. right. destruct (N.eq_dec z b) as [->|nz]; [exfalso; apply Hz; left; eauto|].
      destruct (N.eq_dec z a) as [->|na]; [exfalso; apply Hz; left; eauto|]. rewrite EG, G1o by assumption. split; [reflexivity|]. rewrite HS; assumption.
Qed.

(** RTT_CREATE below a block *)
Lemma go_link : forall gh m a l t i pa f, T gh m -> own gh a = Some (rd, l, t) -> i < 512 -> asg (ent gh a i) = Some pa -> (l < 3)%Z ->
  g_state (m_gr m f) = DELEGATED -> in_reach d f ->
  exists gh' m', Goes gh m gh' m' /\ own gh' f = Some (rd, (l + 1)%Z, 512 * t + i) /\
    (forall j, ent gh' f j = unfold_e (l + 1) (ent gh a i) j) /\ g_state (m_gr m' a) = RTT /\ g_state (m_gr m' f) = RTT /\
    (forall z, z <> a -> z <> f -> m_gr m' z = m_gr m z).
Proof.
  intros gh m a l t i pa f H O Hi A L3 SD IR. pose proof (mv_inv _ _ _ (tt_mi _ _ H)) as I. pose proof (tt_rd _ _ H) as R.
  destruct (asg_facts _ _ _ _ _ _ _ H O Hi A) as (Pn & BL & PA & DM).
  destruct (entry_place _ _ _ _ _ _ H O Hi (parn_ipan _ _ Pn)) as (Ha & Dv & Md & L1 & L2 & VE & b0 & EA).
  set (ipa := (512 * t + i) * ms l) in *.
  assert (SG : (sgn64 (Z.to_N (l + 1)) - 1 = l)%Z) by (rewrite sgn_level; lia).
  assert (SG1 : sgn64 (Z.to_N (l + 1)) = (l + 1)%Z) by (apply sgn_level; lia).
  assert (RD : ready c m (KRttCreate rd f ipa (Z.to_N (l + 1)))).
  { split; [|split; [exact Logic.I|]].
    - exists d. rewrite SG, SG1. split; [exact R|]. split; [lia|]. split; [split; [exact Ha|rewrite ms_lsb by exact L2; exact Md]|]. auto.
    - unfold place_ok. cbn [walks]. rewrite SG. exists d. split; [exact R|]. eexists _, _. split; [exact EA|].
      cbn [wanted]. rewrite SG. intros b B. apply desc_table in B; [|assumption]. rewrite B in A. discriminate. }
  destruct (runs _ _ _ H (Logic.I : dismantles (KRttCreate rd f ipa (Z.to_N (l + 1)))) RD) as (m' & r & gh' & labs & inv & ST & Z0 & Re & M' & EC & GE & K).
  cbn [cmd_eff] in K. cbv zeta in K. destruct K as [(NZ & _)|(_ & K)]; [contradiction|]. rewrite SG in K.
  destruct K as (d1 & e & R1 & _ & _ & _ & -> & _). rewrite Dv in GE. destruct (one_effect _ _ _ _ _ _ _ _ GE) as (G1 & V1 & X & EG).
  destruct (link_facts _ _ _ _ _ _ _ _ _ _ _ _ X) as (a1 & t1 & i1 & En & Hi1 & O1 & Ee & A2 & Eg & G1a & G1p & G1o).
  assert (t1 = t /\ i1 = i) as (-> & ->) by lia. assert (a1 = a) by (eapply own_unique; eassumption). subst a1. exists gh', m'.
  assert (NR : a <> rd) by (intros ->; pose proof (own_rtt _ _ _ _ I _ _ _ _ O); destruct R; congruence).
  assert (NP : f <> rd) by (intros ->; destruct R; congruence).
  assert (OF : own gh' f = Some (rd, (l + 1)%Z, 512 * t + i)) by (rewrite Eg; unfold set_own; cbn [own]; apply upd_same).
  split; [|rewrite !EG; split; [exact OF|]; split; [intro j; rewrite Eg; unfold set_own, set_ent; cbn [ent]; rewrite upd_same, Ee; reflexivity|]; split; [exact G1a|]; split; [exact G1p|]; intros; rewrite EG; auto].
  split; [refine (succeed_one _ _ _ _ ST Z0 _); exact Logic.I|]. split.
  - split; [exact Re|exact M'|rewrite EC; apply H|unfold is_rd; rewrite EG, G1o by auto; exact R|].
    intros r0 Hr q Ex. rewrite Eg in Hr. exact (tt_idle _ _ H r0 Hr q (executes_same _ _ _ _ EC Ex)).
  - assert (HS : forall z, z <> f -> has gh' z <-> has gh z).
    { intros z nz. rewrite Eg. unfold has, set_own, set_ent. cbn [own dmap recs auxo]. rewrite upd_other by exact nz. reflexivity. }
    split.
    + intros z Hz. destruct (N.eq_dec z f) as [->|nz]; [left; left; eauto|left; apply HS; assumption].
    + intros z nr Hz. destruct (N.eq_dec z f) as [->|nz]; [left; split; [left; eauto|exact SD]|right].
      destruct (N.eq_dec z a) as [->|na]; [exfalso; apply Hz; left; eauto|]. rewrite EG, G1o by assumption. split; [reflexivity|]. rewrite HS; assumption.
Qed.

(** REC_DESTROY *)
Lemma go_rec : forall gh m r, T gh m -> In r (recs gh rd) ->
  exists gh' m', Goes gh m gh' m' /\ own gh' = own gh /\ ent gh' = ent gh /\ dmap gh' = dmap gh /\ m_gr m' r = mkG DELEGATED 0 czero /\
    (forall z, z <> rd -> m_gr m' z = m_gr m z \/ m_gr m' z = mkG DELEGATED 0 czero).
Proof.
  intros gh m a H Hr. pose proof (mv_inv _ _ _ (tt_mi _ _ H)) as I. pose proof (tt_rd _ _ H) as R.
  destruct (i_recs _ _ _ _ I _ _ Hr) as (rc & IR & Er).
  assert (RD : ready c m (KRecDestroy a)).
  { split; [exists rc; exact IR|]. split; [|exact Logic.I]. cbn [object_ok]. intros q. exact (tt_idle _ _ H a Hr q). }
  destruct (runs _ _ _ H (Logic.I : dismantles (KRecDestroy a)) RD) as (m' & r & gh' & labs & inv & ST & Z0 & Re & M' & EC & GE & K).
  cbn [cmd_eff] in K. destruct K as [(NZ & _)|(_ & K)]; [contradiction|].
  destruct K as (_ & rc1 & IR1 & _ & ->). assert (rc1 = rc) by (eapply is_rec_inj; eassumption). subst rc1. rewrite Er in GE.
  destruct (one_effect _ _ _ _ _ _ _ _ GE) as (G1 & V1 & X & EG).
  destruct (rec_gone_facts _ _ _ _ _ _ _ _ _ _ X) as (d1 & _ & _ & R1 & R2 & G1r & G1a & G1o & Eg).
  assert (d1 = d) by (destruct R, R1; congruence). subst d1. exists gh', m'.
  assert (XA : forall z, In z (r_aux rc) -> auxo gh z = Some a).
  { destruct IR as [S1 M1]. destruct (i_rec _ _ _ _ I a S1) as (_ & rc2 & d2 & E2 & _ & _ & _ & F2). assert (rc2 = rc) by congruence. subst. exact F2. }
  assert (AX : forall z, auxo gh z = Some a -> In z (r_aux rc)).
  { intros z Az. destruct (i_auxo _ _ _ _ I _ _ Az) as (_ & rc2 & R3 & I3). rewrite (is_rec_inj _ _ _ _ IR R3). exact I3. }
  split.
  2:{ rewrite Eg. do 3 (split; [reflexivity|]). split; [rewrite EG; exact G1r|]. intros z nz. rewrite EG.
      destruct (N.eq_dec z a) as [->|na]; [auto|]. destruct (in_dec N.eq_dec z (r_aux rc)) as [Hz|Hz]; [auto|]. left. auto. }
  split; [refine (succeed_one _ _ _ _ ST Z0 _); exact Logic.I|].
  assert (RC : forall z, In z (recs gh' rd) <-> In z (recs gh rd) /\ z <> a).
  { intro z. rewrite Eg. unfold set_auxs, set_recs. cbn [recs]. rewrite upd_same. split.
    - intro K. apply in_remove in K. exact K.
    - intros [K1 K2]. apply in_in_remove; assumption. }
  split.
  - split; [exact Re|exact M'|rewrite EC; apply H|unfold is_rd in *; rewrite EG; exact R2|].
    intros r0 K q Ex. apply RC in K. exact (tt_idle _ _ H r0 (proj1 K) q (executes_same _ _ _ _ EC Ex)).
  - assert (HA : forall z, In z (r_aux rc) -> g_state (m_gr m' z) = DELEGATED) by (intros z Hz; rewrite EG, G1a by exact Hz; reflexivity).
    assert (HS : forall z, z <> a -> ~ In z (r_aux rc) -> has gh' z <-> has gh z).
    { intros z nz na. unfold has. rewrite !RC.
      assert (E1 : own gh' = own gh /\ dmap gh' = dmap gh /\ auxo gh' z = auxo gh z).
      { rewrite Eg. unfold set_auxs, set_recs. cbn [own dmap auxo]. do 2 (split; [reflexivity|]). destruct (memb z (r_aux rc)) eqn:E; [apply memb_in in E; contradiction|reflexivity]. }
      destruct E1 as (-> & -> & ->). split.
      - intros [K|[K|[K|(r0 & K1 & K2)]]]; [auto|auto|tauto|]. apply RC in K2. right. right. right. exists r0. tauto.
      - intros [K|[K|[K|(r0 & K1 & K2)]]]; [auto|auto|tauto|]. right. right. right. exists r0. split; [exact K1|]. apply RC. split; [exact K2|].
        intros ->. apply na, AX, K1. }
    split.
    + intros z Hz. destruct (N.eq_dec z a) as [->|nz]; [right; rewrite EG, G1r; reflexivity|].
      destruct (in_dec N.eq_dec z (r_aux rc)) as [Hx|Hx]; [right; auto|left; apply HS; assumption].
    + intros z nr Hz. right. destruct (N.eq_dec z a) as [->|nz]; [exfalso; apply Hz; right; right; left; exact Hr|].
      destruct (in_dec N.eq_dec z (r_aux rc)) as [Hx|Hx]; [exfalso; apply Hz; right; right; right; exists a; auto|].
      rewrite EG, G1o by assumption. split; [reflexivity|]. rewrite HS; assumption.
Qed.

(* ------------------------------------------------------------------ *)
(** * Taking the realm apart *)
Variable B : nat.
Hypothesis HB : forall a, find_granule c a = true -> (N.to_nat a < B)%nat.
Notation W m := (uses (m_gr m) B).

Definition roomy (gh : ghost) (m : mstate) : Prop :=
  (forall b l t i, own gh b = Some (rd, l, t) -> i < 512 -> asg (ent gh b i) <> None -> l = 3%Z) \/ two_spares m d.

Lemma own_used : forall gh m a l t, T gh m -> own gh a = Some (rd, l, t) -> used (m_gr m a) = true.
Proof. intros gh m a l t H O. apply (has_state _ _ _ (tt_mi _ _ H)). left. eauto. Qed.
Lemma used_bound : forall gh m a, T gh m -> used (m_gr m a) = true -> (N.to_nat a < B)%nat.
Proof.
  intros gh m a H U. apply HB. eapply i_gran; [exact (mv_inv _ _ _ (tt_mi _ _ H))|]. intro E. unfold used in U. rewrite E in U. discriminate.
Qed.

Lemma spares_kept : forall m m' (P : N -> Prop), two_spares m d -> (forall z, g_state (m_gr m z) = DELEGATED -> ~ P z) ->
  (forall z, ~ P z -> g_state (m_gr m' z) = g_state (m_gr m z)) -> two_spares m' d.
Proof.
  intros m m' P (f & g & N & Sf & Sg & Rf & Rg) H K. exists f, g. split; [exact N|]. split; [rewrite K by (apply H, Sf); exact Sf|].
  split; [rewrite K by (apply H, Sg); exact Sg|]. auto.
Qed.

(** A page less *)
Lemma drain : forall gh m a t i pa, T gh m -> own gh a = Some (rd, 3%Z, t) -> i < 512 -> asg (ent gh a i) = Some pa ->
  exists gh' m', Goes gh m gh' m' /\ (W m' < W m)%nat /\ g_state (m_gr m' pa) = DELEGATED /\ own gh' = own gh /\
    (forall j, j <> i -> ent gh' a j = ent gh a j) /\ (roomy gh m -> roomy gh' m') /\
    (forall z, g_state (m_gr m z) = DELEGATED -> g_state (m_gr m' z) = DELEGATED).
Proof.
  intros gh m a t i pa H O Hi A. destruct (go_release _ _ _ _ _ _ H O Hi A) as (gh' & m' & e' & GO & Eg & A' & Gp & Ga & Go).
  destruct (asg_facts _ _ _ _ _ _ _ H O Hi A) as (_ & _ & _ & DM).
  assert (UP : used (m_gr m pa) = true) by (apply (has_state _ _ _ (tt_mi _ _ H)); right; left; eauto).
  pose proof (own_used _ _ _ _ _ H O) as UA.
  assert (DD : forall z, g_state (m_gr m z) = DELEGATED -> g_state (m_gr m' z) = DELEGATED).
  { intros z D. rewrite Go; [exact D| |]; intros ->; unfold used in *; rewrite D in *; discriminate. }
  exists gh', m'. split; [exact GO|]. split; [|split; [rewrite Gp; reflexivity|split; [rewrite Eg; reflexivity|split; [|split; [|exact DD]]]]].
  - apply (uses_lt _ _ B pa); [|exact UP|rewrite Gp; reflexivity|exact (used_bound _ _ _ H UP)].
    intros z U. destruct (N.eq_dec z a) as [->|na]; [exact UA|]. destruct (N.eq_dec z pa) as [->|np]; [exact UP|]. rewrite <- Go by assumption. exact U.
  - intros j nj. rewrite Eg. unfold set_dmap, set_ent. cbn [ent]. rewrite upd_same, upd_other by exact nj. reflexivity.
  - intros [NB|(f & g & N & Sf & Sg & Rf & Rg)]; [left|right; exists f, g; auto 8]. intros b l t1 j Ob Hj Aj. rewrite Eg in Ob, Aj.
    unfold set_dmap, set_ent in Ob, Aj. cbn [own ent] in Ob, Aj. apply (NB b l t1 j Ob Hj).
    unfold upd in Aj at 1. destruct (N.eqb_spec b a) as [->|]; [|exact Aj]. unfold upd in Aj. destruct (N.eqb_spec j i); [contradiction|exact Aj].
Qed.

(** A table of level 3 whose first three pages are assigned *)
Lemma drain3 : forall gh m a t, T gh m -> own gh a = Some (rd, 3%Z, t) -> (forall j, j < 3 -> asg (ent gh a j) <> None) ->
  exists gh' m', Goes gh m gh' m' /\ (W m' + 3 <= W m)%nat /\ two_spares m' d.
Proof.
  intros gh m a t H O A.
  destruct (asg (ent gh a 0)) as [p0|] eqn:A0; [|exfalso; apply (A 0); [lia|exact A0]].
  destruct (asg (ent gh a 1)) as [p1|] eqn:A1; [|exfalso; apply (A 1); [lia|exact A1]].
  destruct (asg (ent gh a 2)) as [p2|] eqn:A2; [|exfalso; apply (A 2); [lia|exact A2]].
  pose proof (asg_facts _ _ _ _ _ 0 _ H O eq_refl A0) as (_ & _ & R0 & D0).
  pose proof (asg_facts _ _ _ _ _ 1 _ H O eq_refl A1) as (_ & _ & R1 & D1).
  assert (NE : p0 <> p1). { intros ->. assert (K : (512 * t + 0) * pg 3 = (512 * t + 1) * pg 3) by congruence. change (pg 3) with 1 in K. lia. }
  destruct (drain _ _ _ _ 0 _ H O eq_refl A0) as (gh1 & m1 & G1 & W1 & S1 & O1 & E1 & _ & K1).
  pose proof (proj1 (proj2 G1)) as T1. rewrite <- O1 in O. rewrite <- (E1 1) in A1 by lia. rewrite <- (E1 2) in A2 by lia.
  destruct (drain _ _ _ _ 1 _ T1 O eq_refl A1) as (gh2 & m2 & G2 & W2 & S2 & O2 & E2 & _ & K2).
  pose proof (proj1 (proj2 G2)) as T2. rewrite <- O2 in O. rewrite <- (E2 2) in A2 by lia.
  destruct (drain _ _ _ _ 2 _ T2 O eq_refl A2) as (gh3 & m3 & G3 & W3 & S3 & O3 & E3 & _ & K3).
  exists gh3, m3. split; [eapply goes_trans; [exact H|exact G1|]; eapply goes_trans; [exact T1|exact G2|exact G3]|]. split; [lia|].
  exists p0, p1. split; [exact NE|]. split; [auto|]. split; [auto|]. split; eapply pa_reach; eassumption.
Qed.

(** One more table *)
Lemma split_block : forall gh m a l t i pa f, T gh m -> own gh a = Some (rd, l, t) -> i < 512 -> asg (ent gh a i) = Some pa -> (l < 3)%Z ->
  g_state (m_gr m f) = DELEGATED -> in_reach d f ->
  exists gh' m', Goes gh m gh' m' /\ (W m' <= W m + 1)%nat /\ own gh' f = Some (rd, (l + 1)%Z, 512 * t + i) /\
    (forall j, asg (ent gh' f j) <> None) /\ (forall z, z <> f -> g_state (m_gr m z) = DELEGATED -> g_state (m_gr m' z) = DELEGATED).
Proof.
  intros gh m a l t i pa f H O Hi A L3 SD IR. destruct (go_link _ _ _ _ _ _ _ _ H O Hi A L3 SD IR) as (gh' & m' & GO & OF & EF & Ga & Gf & Go).
  pose proof (own_used _ _ _ _ _ H O) as UA.
  exists gh', m'. split; [exact GO|]. split; [|split; [exact OF|split]].
  - apply (uses_one _ _ _ f). intros z nf U. destruct (N.eq_dec z a) as [->|na]; [exact UA|]. rewrite <- Go by assumption. exact U.
  - intro j. rewrite EF, unfold_asg, A. discriminate.
  - intros z nf D. rewrite Go; [exact D| |exact nf]. intros ->. unfold used in UA. rewrite D in UA. discriminate.
Qed.

Lemma drain_block : forall gh m a l t i pa, T gh m -> own gh a = Some (rd, l, t) -> i < 512 -> asg (ent gh a i) = Some pa -> (l < 3)%Z -> two_spares m d ->
  exists gh' m', Goes gh m gh' m' /\ (W m' < W m)%nat /\ two_spares m' d.
Proof.
  intros gh m a l t i pa H O Hi A L3 (f & g & N & Sf & Sg & Rf & Rg).
  destruct (asg_facts _ _ _ _ _ _ _ H O Hi A) as (_ & BL & _ & _). unfold block_level in BL.
  destruct (split_block _ _ _ _ _ _ _ _ H O Hi A L3 Sf Rf) as (gh1 & m1 & G1 & W1 & O1 & A1 & K1). pose proof (proj1 (proj2 G1)) as T1.
  destruct (Z.eq_dec l 2) as [->|nl].
  - destruct (drain3 _ _ _ _ T1 O1) as (gh2 & m2 & G2 & W2 & S2); [intros; apply A1|]. exists gh2, m2.
    split; [eapply goes_trans; eassumption|]. split; [lia|exact S2].
  - assert (l = 1)%Z by lia. subst l. destruct (asg (ent gh1 f 0)) as [p0|] eqn:A0; [|exfalso; exact (A1 _ A0)].
    destruct (split_block _ _ _ _ _ 0 _ g T1 O1 eq_refl A0 eq_refl (K1 g (not_eq_sym N) Sg) Rg) as (gh2 & m2 & G2 & W2 & O2 & A2 & K2).
    pose proof (proj1 (proj2 G2)) as T2. destruct (drain3 _ _ _ _ T2 O2) as (gh3 & m3 & G3 & W3 & S3); [intros; apply A2|]. exists gh3, m3.
    split; [eapply goes_trans; [exact H|exact G1|]; eapply goes_trans; [exact T1|exact G2|exact G3]|]. split; [lia|exact S3].
Qed.

(** What is left below a table *)
Lemma descend : forall k gh m a l t, T gh m -> own gh a = Some (rd, l, t) -> (3 - l <= Z.of_nat k)%Z -> g_ref (m_gr m a) <> 0 ->
  (exists b l' t' i pa, own gh b = Some (rd, l', t') /\ i < 512 /\ asg (ent gh b i) = Some pa) \/
  (exists b l' t' i b', own gh b = Some (rd, l', t') /\ i < 512 /\ ent gh b i = ETable b' /\ g_ref (m_gr m b') = 0).
Proof.
  induction k as [|k IH]; intros gh m a l t H O Hk NZ; pose proof (mv_inv _ _ _ (tt_mi _ _ H)) as I; pose proof (tt_rd _ _ H) as R;
    pose proof (inv_own _ _ _ _ I _ _ _ _ _ O R) as TO; pose proof (t_level_ok _ _ _ _ _ _ _ TO) as L1; rewrite (t_ref _ _ _ _ _ _ _ TO) in NZ;
    (assert (EX : exists i, i < 512 /\ counted (ent gh a i) = true);
     [destruct (existsb (fun i => counted (ent gh a i)) idx512) eqn:E;
      [apply existsb_exists in E; destruct E as (i & E1 & E2); apply idx512_in in E1; eauto|
       exfalso; apply NZ, cnt_0; intros i Hi; destruct (counted (ent gh a i)) eqn:Ci; [|reflexivity]; rewrite <- E; symmetry; apply existsb_exists; exists i; split; [apply idx512_in, Hi|exact Ci]]|]);
    destruct EX as (i & Hi & Ci); (destruct (asg (ent gh a i)) as [pa|] eqn:A; [left; eauto 9|]);
    (destruct (ent gh a i) as [| | | | | | | |b] eqn:E; try discriminate Ci; try discriminate A);
    destruct (own_child _ _ _ _ I _ _ _ _ _ _ O Hi E) as (OB & L3); [lia|].
  destruct (N.eq_dec (g_ref (m_gr m b)) 0) as [Z|Z]; [right; eauto 9|]. apply (IH gh m b (l + 1)%Z (512 * t + i) H OB); [lia|exact Z].
Qed.

Lemma all_or_one : forall (f : N -> N) n, (forall k, k < N.of_nat n -> f k = 0) \/ exists k, k < N.of_nat n /\ f k <> 0.
Proof.
  intros f n. induction n as [|n [IH|(k & K1 & K2)]]; [left; lia| |right; exists k; split; [lia|exact K2]].
  destruct (N.eq_dec (f (N.of_nat n)) 0) as [E|E]; [left|right; exists (N.of_nat n); split; [lia|exact E]].
  intros k Hk. destruct (N.eq_dec k (N.of_nat n)) as [->|]; [exact E|apply IH; lia].
Qed.

Lemma empties : forall n gh m, T gh m -> (W m <= n)%nat -> roomy gh m -> exists gh' m', Goes gh m gh' m' /\ recs gh' rd = [] /\
  forall k, k < num_root_rtts (rd_ctx d) -> g_ref (m_gr m' (g_rtt (rd_ctx d) + k * 4096)) = 0.
Proof.
  induction n as [n IHn] using (well_founded_induction Wf_nat.lt_wf). intros gh m H Wn RO.
  assert (IH : forall gh1 m1, Goes gh m gh1 m1 -> (W m1 < W m)%nat -> roomy gh1 m1 -> exists gh' m', Goes gh m gh' m' /\ recs gh' rd = [] /\
    forall k, k < num_root_rtts (rd_ctx d) -> g_ref (m_gr m' (g_rtt (rd_ctx d) + k * 4096)) = 0).
  { intros gh1 m1 G1 W1 R1. destruct (IHn (W m1) ltac:(lia) gh1 m1 (proj1 (proj2 G1)) (le_n _) R1) as (gh' & m' & G' & X).
    exists gh', m'. split; [eapply goes_trans; eassumption|exact X]. }
  clear IHn. pose proof (mv_inv _ _ _ (tt_mi _ _ H)) as I. pose proof (tt_rd _ _ H) as R.
  destruct (recs gh rd) as [|r L] eqn:ER.
  2:{ assert (Hr : In r (recs gh rd)) by (rewrite ER; left; reflexivity).
      destruct (go_rec _ _ _ H Hr) as (gh1 & m1 & G1 & E1 & E2 & E3 & Gr & Go).
      assert (Ur : used (m_gr m r) = true) by (apply (has_state _ _ _ (tt_mi _ _ H)); right; right; left; exact Hr).
      apply (IH gh1 m1 G1).
      - apply (uses_lt _ _ B r); [|exact Ur|rewrite Gr; reflexivity|exact (used_bound _ _ _ H Ur)].
        intros z U. destruct (N.eq_dec z rd) as [->|nz]; [unfold used; rewrite (proj1 R); reflexivity|].
        destruct (Go z nz) as [E|E]; rewrite E in U; [exact U|discriminate].
      - destruct RO as [NB|SP]; [left; rewrite E1, E2; exact NB|right]. destruct SP as (f & g & N & Sf & Sg & Rf & Rg). exists f, g.
        assert (DD : forall z, g_state (m_gr m z) = DELEGATED -> g_state (m_gr m1 z) = DELEGATED).
        { intros z D. destruct (Go z) as [E|E]; [intros ->; destruct R; congruence|rewrite E; exact D|rewrite E; reflexivity]. }
        auto 8. }
  destruct (all_or_one (fun k => g_ref (m_gr m (g_rtt (rd_ctx d) + k * 4096))) (N.to_nat (num_root_rtts (rd_ctx d)))) as [Z|(k & Hk & NZ)]; rewrite Nnat.N2Nat.id in *.
  { exists gh, m. split; [apply goes_refl, H|]. auto. }
  pose proof (i_root _ _ _ _ I _ _ _ R Hk) as OR. pose proof (ctx_sl _ (inv_ctx _ _ _ _ I _ _ R)) as SL.
  destruct (descend 4 _ _ _ _ _ H OR ltac:(lia) NZ) as [(b & l & t & i & pa & Ob & Hi & A)|(b & l & t & i & b' & Ob & Hi & E & Zb)].
  - destruct (Z.eq_dec l 3) as [->|nl].
    + destruct (drain _ _ _ _ _ _ H Ob Hi A) as (gh1 & m1 & G1 & W1 & _ & _ & _ & RO1 & _). exact (IH _ _ G1 W1 (RO1 RO)).
    + assert (SP : two_spares m d). { destruct RO as [NB|SP]; [|exact SP]. exfalso. apply nl, (NB b l t i Ob Hi). rewrite A. discriminate. }
      assert (L3 : (l < 3)%Z). { pose proof (t_level_ok _ _ _ _ _ _ _ (inv_own _ _ _ _ I _ _ _ _ _ Ob R)). lia. }
      destruct (drain_block _ _ _ _ _ _ _ H Ob Hi A L3 SP) as (gh1 & m1 & G1 & W1 & S1). exact (IH _ _ G1 W1 (or_intror S1)).
  - destruct (go_unlink _ _ _ _ _ _ _ H Ob Hi E Zb) as (gh1 & m1 & e' & G1 & Eg & A' & Gb & Ga & Go).
    destruct (own_child _ _ _ _ I _ _ _ _ _ _ Ob Hi E) as (OB & _). pose proof (own_used _ _ _ _ _ H OB) as UB. pose proof (own_used _ _ _ _ _ H Ob) as UA.
    apply (IH _ _ G1).
    + apply (uses_lt _ _ B b'); [|exact UB|rewrite Gb; reflexivity|exact (used_bound _ _ _ H UB)].
      intros z U. destruct (N.eq_dec z b) as [->|na]; [exact UA|]. destruct (N.eq_dec z b') as [->|np]; [exact UB|]. rewrite <- Go by assumption. exact U.
    + destruct RO as [NB|(f & g & N & Sf & Sg & Rf & Rg)]; [left|right; exists f, g].
      * intros b1 l1 t1 j O1 Hj Aj. rewrite Eg in O1, Aj. unfold set_own, set_ent in O1, Aj. cbn [own ent] in O1, Aj.
        assert (O2 : own gh b1 = Some (rd, l1, t1)) by (unfold upd in O1; destruct (N.eqb_spec b1 b'); [discriminate|exact O1]).
        apply (NB b1 l1 t1 j O2 Hj). unfold upd in Aj at 1. destruct (N.eqb_spec b1 b) as [->|]; [|exact Aj].
        unfold upd in Aj. destruct (N.eqb_spec j i); [contradiction|exact Aj].
      * assert (DD : forall z, g_state (m_gr m z) = DELEGATED -> g_state (m_gr m1 z) = DELEGATED).
        { intros z D. rewrite Go; [exact D| |]; intros ->; unfold used in *; rewrite D in *; discriminate. }
        auto 8.
Qed.

(** The last command *)
Lemma finish : forall gh m, T gh m -> recs gh rd = [] -> (forall k, k < num_root_rtts (rd_ctx d) -> g_ref (m_gr m (g_rtt (rd_ctx d) + k * 4096)) = 0) ->
  exists m', (exists r, step c h m (OCmd p (KRealmDestroy rd)) = RDone m' (Reply r) /\ x0 r = 0) /\
    m_gr m' rd = mkG DELEGATED 0 czero /\ (forall a, has gh a -> m_gr m' a = mkG DELEGATED 0 czero) /\
    (forall a, a <> rd -> ~ has gh a -> m_gr m' a = m_gr m a).
Proof.
  intros gh m H NR RZ. pose proof (mv_inv _ _ _ (tt_mi _ _ H)) as I. pose proof (tt_rd _ _ H) as R.
  assert (Z : g_ref (m_gr m rd) = 0). { destruct (i_rd _ _ _ _ I rd (proj1 R)) as (_ & _ & _ & E). rewrite E, NR. reflexivity. }
  assert (RD : ready c m (KRealmDestroy rd)).
  { split; [exists d; exact R|]. split; [|exact Logic.I]. apply (destroy_object _ _ _ _ (tt_re _ _ H) (tt_mi _ _ H) _ _ R). auto. }
  destruct (runs _ _ _ H (Logic.I : dismantles (KRealmDestroy rd)) RD) as (m' & r & gh' & labs & inv & ST & Z0 & Re & M' & EC & GE & K).
  cbn [cmd_eff] in K. destruct K as [(NZ & _)|(_ & K)]; [contradiction|]. destruct K as (_ & d1 & R1 & _ & _ & ->).
  assert (d1 = d) by (destruct R, R1; congruence). subst d1. destruct (one_effect _ _ _ _ _ _ _ _ GE) as (G1 & V1 & X & EG).
  destruct (realm_gone_facts _ _ _ _ _ _ _ _ _ X) as (_ & Gd & Gr & Go). exists m'. split; [eauto|].
  pose proof (empty_roots_own _ _ _ (m_gr m) _ (m_vmids m) I _ _ R RZ) as EO. split; [rewrite EG, Gd; reflexivity|]. split.
  - intros a [(l & t & O)|[(n & D)|[K|(b & _ & K)]]]; [| |rewrite NR in K; contradiction|rewrite NR in K; contradiction].
    + destruct (EO _ _ _ O) as (_ & Ht & -> & _). rewrite EG, Gr by exact Ht. reflexivity.
    + exfalso. destruct (i_dmap _ _ _ _ I _ _ _ D) as (_ & l & b & pa & O & A & _). destruct (EO _ _ _ O) as (_ & _ & _ & C0).
      rewrite cnt_0 in C0. specialize (C0 _ (mod512_lt (n / pg l))). destruct (ent gh b ((n / pg l) mod 512)); discriminate.
  - intros a na Ha. rewrite EG. apply Go; [exact na|]. apply root_idx_none. intros k Hk ->. apply Ha. left. exists (s2_sl (rd_ctx d)), k. apply (i_root _ _ _ _ I _ _ _ R Hk).
Qed.

Lemma has_belongs : forall gh m a, T gh m -> a = rd \/ has gh a <-> belongs m rd a.
Proof.
  intros gh m a H. pose proof (mv_inv _ _ _ (tt_mi _ _ H)) as I. pose proof (tt_rd _ _ H) as R. split.
  - intros [->|[(l & t & O)|[(n & D)|[K|(b & K1 & K2)]]]]; [constructor| | | |].
    + eapply b_table; [exact R|]. eapply own_of; eassumption.
    + destruct (dmap_granule _ _ _ _ I _ _ _ D) as (d1 & R1 & _ & PG). eapply b_data; eassumption.
    + destruct (i_recs _ _ _ _ I _ _ K) as (rc & IR & E). eapply b_rec; eassumption.
    + destruct (i_recs _ _ _ _ I _ _ K2) as (rc & IR & E). destruct (i_auxo _ _ _ _ I _ _ K1) as (_ & rc1 & IR1 & X).
      rewrite (is_rec_inj _ _ _ _ IR1 IR) in X. exact (b_aux _ _ _ _ _ IR E X).
  - assert (RE : forall b r, rec_is m b r -> r_g_rd r = rd -> In b (recs gh rd) /\ forall z, In z (r_aux r) -> auxo gh z = Some b).
    { intros b r [S1 M1] E. destruct (i_rec _ _ _ _ I b S1) as (_ & rc & d1 & E1 & _ & _ & K & X). assert (rc = r) by congruence. subst rc. rewrite E in K. auto. }
    intro K. destruct K as [|d1 l t a R1 TO|d1 ipa a R1 PG|r a IR E|r b a IR E X]; [left; reflexivity| | | |]; right.
    + left. exists l, t. eapply (of_own _ _ _ _ I); eassumption.
    + right. left. destruct (granule_dmap _ _ _ _ I _ _ _ _ R1 PG) as (_ & _ & D & _). eauto.
    + right. right. left. apply (RE _ _ IR E).
    + right. right. right. exists b. destruct (RE _ _ IR E) as (K1 & K2). auto.
Qed.

Lemma blocks_ghost : forall gh m, T gh m -> no_blocks m d -> forall b l t i, own gh b = Some (rd, l, t) -> i < 512 -> asg (ent gh b i) <> None -> l = 3%Z.
Proof.
  intros gh m H NB b l t i O Hi A. pose proof (mv_inv _ _ _ (tt_mi _ _ H)) as I. pose proof (tt_rd _ _ H) as R.
  destruct (asg (ent gh b i)) as [pa|] eqn:E; [|contradiction]. destruct (asg_facts _ _ _ _ _ _ _ H O Hi E) as (Pn & BL & PA & DM).
  destruct (entry_place _ _ _ _ _ _ H O Hi (parn_ipan _ _ Pn)) as (Ha & Dv & Md & L1 & L2 & VE & b0 & EA).
  set (ipa := (512 * t + i) * ms l) in *. destruct (dmap_granule _ _ _ _ I _ _ _ DM) as (d1 & R1 & _ & PG).
  assert (d1 = d) by (destruct R, R1; congruence). subst d1.
  assert (EI : (512 * t + i) * pg l * 4096 = ipa) by (unfold ipa; rewrite (ms_pg l) by lia; lia). rewrite EI in PG.
  destruct (NB ipa) as (a & w & E3); [rewrite PG; discriminate|].
  pose proof (entry_own _ _ _ _ I rd d ipa l b 3 R Ha) as EO. rewrite Dv, div512_of, mod512_of in EO by exact Hi.
  specialize (EO O (proj2 L1) (fun _ => asg_not_table _ _ E)). rewrite EO in E3. congruence.
Qed.
End Tear.

Theorem tears : forall c h m p rd d, reachable c h m -> m_cpu m p = None -> realm m rd d ->
  (forall a r q, rec_is m a r -> r_g_rd r = rd -> ~ executes m q a) -> no_blocks m d \/ two_spares m d ->
  exists l m', succeed c h p m l m' /\ Forall dismantles l /\
    (forall a, belongs m rd a -> g_state (m_gr m' a) = DELEGATED) /\ (forall a, ~ belongs m rd a -> m_gr m' a = m_gr m a).
Proof.
  intros c h m p rd d Re Cp R Id SP. destruct (reach_minv _ _ _ Re) as (gh & M). pose proof (mv_inv _ _ _ M) as I.
  assert (H : T c h p rd d gh m).
  { split; [exact Re|exact M|exact Cp|exact R|]. intros r Hr q. destruct (i_recs _ _ _ _ I _ _ Hr) as (rc & IR & E). exact (Id _ _ q IR E). }
  assert (HB : forall a, find_granule c a = true -> (N.to_nat a < N.to_nat (2 ^ 52))%nat).
  { intros a F. apply granule_found in F. pose proof (proj1 Re a (proj2 F)) as L. apply Nat.compare_lt_iff. rewrite <- Nnat.N2Nat.inj_compare. exact L. }
  revert HB. generalize (N.to_nat (2 ^ 52)). intros B HB.
  assert (RO : roomy rd d gh m) by (destruct SP as [NB|S2]; [left; eapply blocks_ghost; eassumption|right; exact S2]).
  destruct (empties c h p rd d B HB _ _ _ H (le_n _) RO) as (gh1 & m1 & (SC & T1 & K1) & NR & RZ).
  destruct (finish c h p rd d _ _ T1 NR RZ) as (m' & (r & ST & Z0) & S1 & S2 & S3).
  destruct SC as (l & SC & F). exists (l ++ [KRealmDestroy rd]), m'.
  split; [eapply succeed_app; [exact SC|econstructor; [exact ST|exact Z0|constructor]]|].
  split; [apply Forall_app; split; [exact F|repeat constructor]|].
  assert (ND : forall a, g_state (m_gr m1 a) = DELEGATED -> m_gr m' a = m_gr m1 a).
  { intros a D. apply S3; [intros ->; pose proof (proj1 (tt_rd _ _ _ _ _ _ _ T1)); congruence|].
    intro X. exact (proj1 (has_state _ _ _ _ _ (tt_mi _ _ _ _ _ _ _ T1) X) D). }
  split.
  - intros a K. apply (has_belongs _ _ _ _ _ _ _ _ H) in K. destruct K as [->|K]; [rewrite S1; reflexivity|].
    destruct (k_has _ _ _ _ _ K1 a K) as [K2|D]; [rewrite (S2 a K2); reflexivity|rewrite ND by exact D; exact D].
  - intros a K. assert (na : a <> rd) by (intros ->; apply K; constructor).
    assert (NH : ~ has rd gh a) by (intro X; apply K, (has_belongs _ _ _ _ _ _ _ _ H); auto).
    destruct (k_not _ _ _ _ _ K1 a na NH) as [(K2 & D)|(E & K2)].
    + rewrite (S2 a K2). symmetry. exact (i_del _ _ _ _ I _ D).
    + rewrite S3 by assumption. exact E.
Qed.
