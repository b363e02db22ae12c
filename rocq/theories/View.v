(** What the tables of a realm say about a page, in terms of the ghost state *)
From Coq Require Import NArith ZArith List Bool Lia ZifyBool ZifyN.
From Verif Require Import Bits S2tte S2tteFacts State Granule Wp RecFields Measure RmiRtt RmiRealm Psci RmiRec Rsi RecRun
  Arch ArchFacts Mmu Machine Inv InvTree MmuFacts InvStep InvStep2 InvStep3 Effects Frames CmdAll MInv MStep.
Import ListNotations.
Local Open Scope N_scope.

Definition at_page (l : Z) (pa ipa : N) : N := pa + (ipa / 4096) mod pg l * 4096.
Definition view_e (l : Z) (e : entry) (ipa : N) : page :=
  match e with
  | EUnEmpty => PUnassigned EMPTY | EUnRam => PUnassigned RAM | EUnDestr => PUnassigned DESTROYED
  | EAsEmpty pa => PAssigned EMPTY (at_page l pa ipa)
  | EAsRam pa => PAssigned RAM (at_page l pa ipa)
  | EAsDestr pa => PAssigned DESTROYED (at_page l pa ipa)
  | EUnNs => PNsUnassigned
  | EAsNs at_ pa => PNsAssigned (at_page l pa ipa) (bits at_ 4 2) (bits at_ 7 6)
  | ETable _ => POut
  end.

Lemma at_page_eq : forall l pa ipa, (-1 <= l <= 3)%Z -> pa + (ipa mod 2 ^ arch_lsb l) / 4096 * 4096 = at_page l pa ipa.
Proof.
  intros l pa ipa Hl. rewrite arch_lsb_eq by exact Hl. fold (ms l). rewrite ms_page by lia. unfold at_page. f_equal. f_equal.
  set (k := (ipa / 4096) mod pg l). lia.
Qed.

Lemma page_desc_enc : forall lpa2 l e ipa, (-1 <= l <= 3)%Z -> valid_entry lpa2 l e -> page_desc lpa2 l (enc lpa2 l e) ipa = view_e l e ipa.
Proof.
  intros lpa2 l e ipa Hl VE. unfold page_desc. rewrite arch_decode_enc by exact VE. cbv zeta. rewrite !at_page_eq by exact Hl.
  pose proof (enc_hipas _ _ _ VE) as Hh. pose proof (enc_ripas _ _ _ VE) as Hr. pose proof (pa_enc _ _ _ VE) as Hp.
  unfold ripas_bits. rewrite hi_enc by (exact VE || lia). rewrite !bits_land_mask by lia.
  change (BIT_MASK 4 2) with S2TTE_INVALID_HIPAS_MASK. change (BIT_MASK 6 5) with S2TTE_INVALID_RIPAS_MASK.
  unfold s2tte_pa in Hp. rewrite (is_table_enc _ _ _ VE) in Hp.
  destruct e; cbn [view_e]; try reflexivity.
  - rewrite Hh, Hr. change (N.shiftr S2TTE_INVALID_HIPAS_ASSIGNED 2) with 1. change (N.shiftr S2TTE_INVALID_RIPAS_EMPTY 5) with 0. change (N.shiftr S2TTE_INVALID_RIPAS_DESTROYED 5) with 2. cbv iota. rewrite arch_lsb_eq by exact Hl. destruct VE as [B _]. unfold block_level in B. rewrite arch_oa_eq, Hp by lia. reflexivity.
  - rewrite at_page_eq by exact Hl. reflexivity.
  - rewrite Hh, Hr. change (N.shiftr S2TTE_INVALID_HIPAS_ASSIGNED 2) with 1. change (N.shiftr S2TTE_INVALID_RIPAS_EMPTY 5) with 0. change (N.shiftr S2TTE_INVALID_RIPAS_DESTROYED 5) with 2. cbv iota. rewrite arch_lsb_eq by exact Hl. destruct VE as [B _]. unfold block_level in B. rewrite arch_oa_eq, Hp by lia. reflexivity.
  - assert (A : forall m, N.land S2TTE_NS_ATTR_MASK m = m -> N.land (enc lpa2 l (EAsNs attrs pa)) m = N.land attrs m).
    { intros m Hm. rewrite <- Hm, !N.land_assoc, enc_ns_attrs by assumption. destruct VE as (_ & _ & A & _). rewrite A. reflexivity. }
    rewrite !A, at_page_eq, !(bits_land_mask attrs) by (reflexivity || exact Hl || lia). reflexivity.
Qed.

Section View.
Variables (c : cfg) (gh : ghost) (G : N -> granule) (V : N -> bool).
Hypothesis I : Inv c gh G V.

Lemma last_desc_leaf : forall n fuel rd d l b ipa lf bf e, is_rd G rd d -> Z.to_nat (3 - l) = n -> (n <= fuel)%nat ->
  own gh b = Some (rd, l, ipa / ms l / 512) -> Leaf gh rd (ipa / 4096) lf bf e ->
  last_desc fuel (tt_read G) (enable_lpa2 (rd_ctx d)) l (b + 8 * ((ipa / ms l) mod 512)) ipa = Some (lf, enc (enable_lpa2 (rd_ctx d)) lf e).
Proof.
  induction n as [|n IH]; intros fuel rd d l b ipa lf bf e R Hn Hf O LF;
    pose proof (inv_own _ _ _ _ I _ _ _ _ _ O R) as T; pose proof (t_level_ok _ _ _ _ _ _ _ T) as LV;
    pose proof (ctx_sl _ (inv_ctx _ _ _ _ I _ _ R)) as SL;
    pose proof (tt_read_entry _ _ _ _ I _ _ _ _ _ _ O R (mod512_lt (ipa / ms l))) as RD;
    pose proof (t_entries _ _ _ _ _ _ _ T _ (mod512_lt (ipa / ms l))) as [VE _];
    destruct fuel as [|fuel]; try lia; cbn [last_desc]; rewrite RD, arch_decode_enc by exact VE;
    (assert (LE : is_table_e (ent gh b ((ipa / ms l) mod 512)) = false -> l = lf /\ ent gh b ((ipa / ms l) mod 512) = e);
     [intro NT; destruct (leaf_unique _ _ _ _ I rd (ipa / 4096) l b (ent gh b ((ipa / ms l) mod 512)) lf bf e) as (K1 & K2 & K3);
        [unfold Leaf; rewrite <- num_page by lia; split; [exact O|split; [reflexivity|exact NT]]|exact LF|split; assumption]
     |]);
    destruct (ent gh b ((ipa / ms l) mod 512)) as [| | | | | | | |b'] eqn:Ee;
    try (destruct (LE eq_refl) as [<- <-]; reflexivity);
    try (exfalso; destruct VE; lia).
  destruct (own_child _ _ _ _ I _ _ _ _ _ _ O (mod512_lt _) Ee) as (O' & L3).
  rewrite <- div512, num_succ in O' by assumption. rewrite arch_lsb_eq by lia. fold (ms (l + 1)).
  eapply IH; [exact R|lia|lia|exact O'|exact LF].
Qed.

Lemma leaf_level : forall rd d p l b e, is_rd G rd d -> Leaf gh rd p l b e -> (s2_sl (rd_ctx d) <= l <= 3)%Z /\ (-1 <= s2_sl (rd_ctx d) <= 2)%Z /\
  entry_ok gh (rd_ctx d) rd l (p / pg l) e.
Proof.
  intros rd d p l b e R (O & E & _). pose proof (inv_own _ _ _ _ I _ _ _ _ _ O R) as T. split; [apply (t_level_ok _ _ _ _ _ _ _ T)|].
  split; [apply (ctx_sl _ (inv_ctx _ _ _ _ I _ _ R))|]. pose proof (t_entries _ _ _ _ _ _ _ T _ (mod512_lt (p / pg l))) as K. rewrite E, <- div512 in K. exact K.
Qed.

Lemma view_leaf : forall rd d ipa l b e, is_rd G rd d -> ipa < 2 ^ ipa_bits (rd_ctx d) -> Leaf gh rd (ipa / 4096) l b e ->
  page_at G (rd_ctx d) ipa = view_e l e ipa /\ translate G (rd_ctx d) ipa = leaf_x (enable_lpa2 (rd_ctx d)) l e ipa.
Proof.
  intros rd d ipa l b e R Hi LF. pose proof (inv_ctx _ _ _ _ I _ _ R) as X. pose proof (ctx_sl _ X) as SL.
  destruct (root_own _ _ _ _ I _ _ _ R Hi) as (K & O).
  assert (EA : first_desc (rd_ctx d) ipa = g_rtt (rd_ctx d) + ipa / ms (s2_sl (rd_ctx d)) / 512 * 4096 + 8 * ((ipa / ms (s2_sl (rd_ctx d))) mod 512)).
  { unfold first_desc. rewrite arch_lsb_eq by lia. fold (ms (s2_sl (rd_ctx d))). rewrite (div512 (ipa / ms (s2_sl (rd_ctx d)))) at 1. lia. }
  unfold page_at, translate. destruct (N.ltb_spec ipa (2 ^ ipa_bits (rd_ctx d))); [|lia]. rewrite EA. split.
  - rewrite (last_desc_leaf (Z.to_nat (3 - s2_sl (rd_ctx d))) 4 rd d (s2_sl (rd_ctx d)) _ ipa l b e R eq_refl ltac:(lia) O LF).
    destruct (leaf_level _ _ _ _ _ _ R LF) as (L1 & L2 & VE & _). apply page_desc_enc; [lia|exact VE].
  - apply (arch_walk_leaf _ _ _ _ I (Z.to_nat (3 - s2_sl (rd_ctx d))) 4 rd d (s2_sl (rd_ctx d)) _ ipa l b e R eq_refl ltac:(lia) O LF).
Qed.

Lemma leaf_of : forall rd d ipa, is_rd G rd d -> ipa < 2 ^ ipa_bits (rd_ctx d) -> exists l b e, Leaf gh rd (ipa / 4096) l b e.
Proof.
  intros rd d ipa R Hi. apply (leaf_exists _ _ _ _ I _ _ _ R). rewrite <- ms_3. apply (num_ipan _ (inv_ctx _ _ _ _ I _ _ R) 3); [|exact Hi].
  pose proof (ctx_sl _ (inv_ctx _ _ _ _ I _ _ R)). lia.
Qed.

(** A page of the realm and its granule *)
Lemma leaf_par : forall rd d ipa l n, is_rd G rd d -> (s2_sl (rd_ctx d) <= l <= 3)%Z -> n = ipa / 4096 / pg l -> (n < parn (rd_ctx d) l <-> protected (rd_ctx d) ipa).
Proof.
  intros rd d ipa l n R Hl ->. rewrite <- num_page by lia. split; apply (num_parn _ (inv_ctx _ _ _ _ I _ _ R) l); exact Hl.
Qed.

Lemma granule_dmap : forall rd d ipa pa, is_rd G rd d -> page_granule (page_at G (rd_ctx d) ipa) = Some pa ->
  protected (rd_ctx d) ipa /\ ipa < 2 ^ ipa_bits (rd_ctx d) /\ dmap gh pa = Some (rd, ipa / 4096) /\ g_state (G pa) = DATA.
Proof.
  intros rd d ipa pa R H. destruct (N.lt_ge_cases ipa (2 ^ ipa_bits (rd_ctx d))) as [Hi|Hi].
  2:{ unfold page_at in H. destruct (N.ltb_spec ipa (2 ^ ipa_bits (rd_ctx d))); [lia|discriminate H]. }
  destruct (leaf_of _ _ _ R Hi) as (l & b & e & LF). destruct (view_leaf _ _ _ _ _ _ R Hi LF) as [E _]. rewrite E in H. clear E.
  destruct (leaf_level _ _ _ _ _ _ R LF) as (L1 & L2 & VE & EO).
  assert (K : ipa / 4096 / pg l < parn (rd_ctx d) l /\ dmap gh pa = Some (rd, ipa / 4096)).
  { destruct e; cbn [view_e page_granule] in H; try discriminate H; injection H as <-; destruct EO as [P1 P2]; (split; [exact P1|]); apply P2; reflexivity. }
  destruct K as [K1 K2]. split; [eapply leaf_par; eauto|]. split; [exact Hi|]. split; [exact K2|apply (i_dmap _ _ _ _ I _ _ _ K2)].
Qed.

(** Every data granule is at one page of one realm *)
Lemma dmap_granule : forall pa rd p, dmap gh pa = Some (rd, p) -> exists d, is_rd G rd d /\ protected (rd_ctx d) (p * 4096) /\
  page_granule (page_at G (rd_ctx d) (p * 4096)) = Some pa.
Proof.
  intros pa rd p D. destruct (i_dmap _ _ _ _ I _ _ _ D) as (_ & l & b & pa0 & O & A & ->). destruct (own_rd _ _ _ _ I _ _ _ _ O) as (d & R).
  assert (Ep : p * 4096 / 4096 = p) by (apply N.div_mul; discriminate).
  assert (LF : Leaf gh rd (p * 4096 / 4096) l b (ent gh b ((p / pg l) mod 512))).
  { rewrite Ep. split; [exact O|]. split; [reflexivity|]. destruct (ent gh b ((p / pg l) mod 512)); try discriminate A; reflexivity. }
  destruct (leaf_level _ _ _ _ _ _ R LF) as (L1 & L2 & VE & EO). exists d. split; [exact R|].
  assert (P : protected (rd_ctx d) (p * 4096)).
  { apply (leaf_par rd d (p * 4096) l (p / pg l) R L1); [rewrite Ep; reflexivity|]. rewrite Ep in EO. destruct (ent gh b ((p / pg l) mod 512)); try discriminate A; apply EO. }
  split; [exact P|]. assert (Hi : p * 4096 < 2 ^ ipa_bits (rd_ctx d)).
  { unfold protected in P. eapply N.lt_le_trans; [exact P|]. apply N.pow_le_mono_r; lia. }
  destruct (view_leaf _ _ _ _ _ _ R Hi LF) as [E _]. rewrite E.
  destruct (ent gh b ((p / pg l) mod 512)); try discriminate A; injection A as ->; cbn [view_e page_granule]; unfold at_page; rewrite Ep; reflexivity.
Qed.
End View.
