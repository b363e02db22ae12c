(** xlat_map_memory_page_with_attrs and xlat_unmap_memory_page. *)
From Coq Require Import NArith ZArith List Bool Lia ZifyBool ZifyN ZifyNat.
From Verif Require Import Bits Xlat SpecXlat XlatDesc XlatTree XlatMap XlatInit XlatCfg.
Import ListNotations.
Local Open Scope N_scope.

Section Dyn.
Variables (A : xarch) (T : xtbls) (need : nat -> N -> Prop) (H : nat) (own : N -> nat * N) (nx : N).
Hypothesis HT : tbls_ok T.
Hypothesis O0 : own 0 = (H, 0).
Hypothesis HH : (H <= 4)%nat.

Definition D (m : N -> N) : Prop := tree A T need own (mkXst m nx).

(** A walk from the root passes through every table *)
Lemma path : forall m, D m -> forall d k h b va, (H = h + d)%nat -> k < nx -> own k = (h, b) -> b <= va < b + 512 * block_size h ->
  va < 512 * block_size H /\ leaf A m H (t_tables T) va = leaf A m h (taddr T k) va.
Proof.
  intros m TR. induction d as [|d IH]; intros k h b va Hd Hk Ho Hv.
  - destruct (N.eq_dec k 0) as [->|K0].
    + rewrite O0 in Ho. injection Ho as <- <-. rewrite taddr0. split; [clear - Hv; lia|reflexivity].
    + exfalso. destruct (tr_parent _ _ _ _ _ TR k) as (k2 & i & Q1 & Q2 & Q3 & _); [cbn [x_next]; clear - K0 Hk; lia|].
      pose proof (tr_root _ _ _ _ _ TR k2 Q1) as RT. rewrite O0, Q3, Ho in RT. cbn [fst] in RT. clear - RT Hd. lia.
  - assert (K0 : k <> 0). { intros ->. rewrite O0 in Ho. injection Ho as Ho _. clear - Ho Hd. lia. }
    destruct (tr_parent _ _ _ _ _ TR k) as (k2 & i & Q1 & Q2 & Q3 & Q4 & Q5); [cbn [x_next]; clear - K0 Hk; lia|].
    rewrite Ho in Q3, Q4. cbn [fst snd] in Q3, Q4. cbn [x_next x_mem] in Q1, Q5.
    assert (Ho2 : own k2 = (S h, snd (own k2))) by (rewrite (surjective_pairing (own k2)) at 1; rewrite Q3; reflexivity).
    rewrite Q3 in Q4.
    assert (R : snd (own k2) + i * block_size (S h) <= va < snd (own k2) + i * block_size (S h) + block_size (S h)).
    { rewrite <- Q4, bs_S. exact Hv. }
    destruct (IH k2 (S h) (snd (own k2)) va ltac:(clear - Hd; lia) Q1 Ho2) as [I1 I2].
    { clear - R Q2. set (B := block_size (S h)) in *. clearbody B. nia. }
    split; [exact I1|]. rewrite I2.
    pose proof (look_entry A T need own _ (S h) _ k2 i va HT TR Q1 Ho2 Q2 R) as L. cbn [x_mem] in L. rewrite L. cbv zeta.
    rewrite Q5. destruct (table_at A T k HT) as [-> ->]; [pose proof (tr_next _ _ _ _ _ TR) as NX; cbn [x_next] in NX; clear - NX Hk; lia|].
    reflexivity.
Qed.

Lemma height_le : forall m k h b, D m -> k < nx -> own k = (h, b) -> (h <= H)%nat.
Proof. intros m k h b TR Hk Ho. pose proof (tr_root _ _ _ _ _ TR k Hk) as RT. rewrite Ho, O0 in RT. exact RT. Qed.

(** The entry of an address in a table, from the root *)
Lemma leaf_at : forall m k h b i va, D m -> k < nx -> own k = (h, b) -> i < 512 ->
  b + i * block_size h <= va < b + i * block_size h + block_size h ->
  (h = 0%nat \/ N.land (m (entry_addr (taddr T k) i)) DESC_MASK <> 3) ->
  va < 512 * block_size H /\ leaf A m H (t_tables T) va = (m (entry_addr (taddr T k) i), h).
Proof.
  intros m k h b i va TR Hk Ho Hi Hv NT. pose proof (height_le m k h b TR Hk Ho) as HL.
  destruct (path m TR (H - h)%nat k h b va) as [P1 P2]; try assumption.
  { clear - HL. lia. }
  { clear - Hv Hi. set (B := block_size h) in *. clearbody B. nia. }
  split; [exact P1|]. rewrite P2. pose proof (look_entry A T need own _ h b k i va HT TR Hk Ho Hi Hv) as L. cbn [x_mem] in L. rewrite L. cbv zeta.
  destruct h as [|h]; [reflexivity|]. destruct NT as [|NT]; [discriminate|]. apply N.eqb_neq in NT. rewrite NT. reflexivity.
Qed.

(** Changing an entry that is no table *)
Lemma write_dyn : forall m k h b i v, D m -> k < nx -> own k = (h, b) -> i < 512 ->
  (h = 0%nat \/ N.land (m (entry_addr (taddr T k) i)) DESC_MASK <> 3) -> (h = 0%nat \/ N.land v DESC_MASK <> 3) ->
  D (set_word m (entry_addr (taddr T k) i) v) /\
  forall va, va < 512 * block_size H -> leaf A (set_word m (entry_addr (taddr T k) i) v) H (t_tables T) va =
    if (b + i * block_size h <=? va) && (va <? b + i * block_size h + block_size h) then (v, h) else leaf A m H (t_tables T) va.
Proof.
  intros m k h b i v TR Hk Ho Hi N1 N2. set (p := entry_addr (taddr T k) i).
  assert (OT : forall j i', i' < 512 -> ~ (j = k /\ i' = i) -> set_word m p v (entry_addr (taddr T j) i') = m (entry_addr (taddr T j) i')).
  { intros j i' Hi' Hn. unfold set_word. destruct (N.eqb_spec (entry_addr (taddr T j) i') p) as [E|]; [|reflexivity].
    apply entry_inj in E; tauto. }
  assert (AT : set_word m p v p = v) by (unfold set_word; rewrite N.eqb_refl; reflexivity).
  assert (TR' : D (set_word m p v)).
  { pose proof TR as TR0. destruct TR as [t1 t2 t3 t4 t4b t4c t5 t6]. split; cbn [x_mem x_next] in *; try assumption.
    - intros j i' h' Hj Hi' Hf E. destruct (N.eq_dec j k) as [->|Hne]; [destruct (N.eq_dec i' i) as [->|Hne]|].
      + exfalso. fold p in E. rewrite AT in E. rewrite Ho in Hf. cbn [fst] in Hf. subst h. destruct N2 as [|N2]; [discriminate|contradiction].
      + rewrite OT in E |- * by tauto. apply t4; assumption.
      + rewrite OT in E |- * by tauto. apply t4; assumption.
    - intros j Hj. destruct (t4b j Hj) as (kp & ip & P1 & P2 & P3 & P4 & P5). exists kp, ip. rewrite OT; try assumption.
      + repeat split; assumption.
      + intros [-> ->]. rewrite Ho in P3. cbn [fst] in P3. destruct N1 as [->|N1]; [discriminate|]. apply N1. rewrite P5.
        destruct (table_at A T j HT) as [_ ->]; [clear - t1 Hj; lia|reflexivity].
    - intros j i' Hj Hi'. rewrite OT; [apply t5; assumption|exact Hi'|]. intros [-> _]. clear - Hk Hj. lia. }
  split; [exact TR'|]. intros va Hva.
  destruct ((b + i * block_size h <=? va) && (va <? b + i * block_size h + block_size h)) eqn:C.
  - destruct (leaf_at (set_word m p v) k h b i va TR' Hk Ho Hi) as [_ L].
    + clear - C. lia.
    + fold p. rewrite AT. exact N2.
    + fold p in L. rewrite AT in L. exact L.
  - assert (G : forall h' k' b', k' < nx -> own k' = (h', b') -> b' <= va < b' + 512 * block_size h' ->
      leaf A (set_word m p v) h' (taddr T k') va = leaf A m h' (taddr T k') va).
    { induction h' as [|h' IH]; intros k' b' Hk' Ho' Hv'.
      - cbn [leaf]. rewrite OT; [reflexivity|apply N.mod_lt; discriminate|].
        intros [-> E]. rewrite Ho in Ho'. injection Ho' as -> ->.
        assert (AL := tr_al _ _ _ _ _ TR k Hk). rewrite Ho in AL. cbn [fst snd] in AL.
        pose proof (index_exists b' (block_size 0) va (bs_pos _) AL Hv') as IX. rewrite E in IX. clear - IX C. lia.
      - assert (AL := tr_al _ _ _ _ _ TR k' Hk'). rewrite Ho' in AL. cbn [fst snd] in AL.
        pose proof (index_exists b' (block_size (S h')) va (bs_pos _) AL Hv') as IX.
        assert (Hi' : va / block_size (S h') mod 512 < 512) by (apply N.mod_lt; discriminate).
        cbn [leaf]. set (i' := va / block_size (S h') mod 512) in *.
        rewrite OT; [|exact Hi'|].
        2:{ intros [-> E]. rewrite Ho in Ho'. injection Ho' as -> ->. rewrite E in IX. clear - IX C. lia. }
        destruct (N.eqb_spec (N.land (m (entry_addr (taddr T k') i')) DESC_MASK) 3) as [E|]; [|reflexivity].
        destruct (tr_entry _ _ _ _ _ TR k' i' h' Hk' Hi') as (k2 & K0 & K1 & K2 & K3); [rewrite Ho'; reflexivity|exact E|].
        cbn [x_mem x_next] in *. rewrite K2. destruct (table_at A T k2 HT) as [-> _]; [pose proof (tr_next _ _ _ _ _ TR) as NX; cbn [x_next] in NX; clear - NX K1; lia|].
        apply (IH k2 (b' + i' * block_size (S h'))); [exact K1|rewrite Ho' in K3; exact K3|]. rewrite <- bs_S. exact IX. }
    rewrite <- (taddr0 T). apply (G H 0 0); [|exact O0|clear - Hva; lia].
    pose proof (tr_next _ _ _ _ _ TR) as NX. cbn [x_next] in NX. clear - NX. lia.
Qed.

(** The last-level table of an address *)
Lemma last_ok : forall m base, D m -> forall h k b off, k < nx -> own k = (h, b) -> b <= off < b + 512 * block_size h -> base + off < 2 ^ 64 ->
  exists k' h' b', last_table A m h off (taddr T k) (base + b) = mkLlt (taddr T k') (base + b') h' /\ k' < nx /\ own k' = (h', b') /\
    b' <= off < b' + 512 * block_size h' /\
    (h' = 0%nat \/ N.land (m (entry_addr (taddr T k') (off / block_size h' mod 512))) DESC_MASK <> 3).
Proof.
  intros m base TR. induction h as [|h IH]; intros k b off Hk Ho Hv Hb; cbn [last_table].
  - exists k, 0%nat, b. split; [reflexivity|]. split; [exact Hk|]. split; [exact Ho|]. split; [exact Hv|left; reflexivity].
  - assert (IX : N.land (N.shiftr off (addr_shift (S h))) 511 = off / block_size (S h) mod 512).
    { rewrite N.shiftr_div_pow2. change 511 with (N.ones 9). rewrite N.land_ones. reflexivity. }
    rewrite IX. set (i := off / block_size (S h) mod 512) in *.
    assert (Hi : i < 512) by (apply N.mod_lt; discriminate).
    assert (AL := tr_al _ _ _ _ _ TR k Hk). rewrite Ho in AL. cbn [fst snd] in AL.
    pose proof (index_exists b (block_size (S h)) off (bs_pos _) AL Hv) as RX. fold i in RX.
    unfold TABLE_DESC at 1. destruct (N.eqb_spec (N.land (m (entry_addr (taddr T k) i)) DESC_MASK) 3) as [E|E]; cbn [negb].
    2:{ exists k, (S h), b. split; [reflexivity|]. split; [exact Hk|]. split; [exact Ho|]. split; [exact Hv|right; exact E]. }
    destruct (tr_entry _ _ _ _ _ TR k i h Hk Hi) as (k2 & K0 & K1 & K2 & K3); [rewrite Ho; reflexivity|exact E|].
    cbn [x_mem x_next] in *. rewrite K2. destruct (table_at A T k2 HT) as [-> _]; [pose proof (tr_next _ _ _ _ _ TR) as NX; cbn [x_next] in NX; clear - NX K1; lia|].
    rewrite Ho in K3. cbn [snd] in K3.
    rewrite (wrap_small (base + b + block_size (S h) * i)) by (clear - RX Hb; lia).
    replace (base + b + block_size (S h) * i) with (base + (b + i * block_size (S h))) by (clear; lia).
    apply IH; [exact K1|exact K3|rewrite <- bs_S; exact RX|exact Hb].
Qed.

Lemma tte_ok : forall m base k h b va p, D m -> k < nx -> own k = (h, b) -> near (mkLlt (taddr T k) (base + b) h) va ->
  xlat_get_tte_ptr (mkLlt (taddr T k) (base + b) h) va = Some p ->
  exists i, i < 512 /\ p = entry_addr (taddr T k) i /\ base + b <= va /\
    b + i * block_size h <= va - base < b + i * block_size h + block_size h.
Proof.
  intros m base k h b va p TR Hk Ho NR E. unfold xlat_get_tte_ptr in E. cbn [l_base_va l_height l_table] in E.
  destruct (N.ltb_spec va (base + b)) as [|L]; [discriminate|].
  unfold near in NR. cbn [l_base_va l_height] in NR. rewrite span_bs in NR. pose proof (bs_pos h) as BP.
  rewrite N.shiftr_div_pow2 in E. fold (block_size h) in E. set (i := (va - (base + b)) / block_size h) in *.
  assert (RI : i * block_size h <= va - (base + b) < i * block_size h + block_size h).
  { unfold i. pose proof (N.div_mod (va - (base + b)) (block_size h)) as Q1. pose proof (N.mod_lt (va - (base + b)) (block_size h)) as Q2.
    clear - BP Q1 Q2. set (q := (va - (base + b)) / block_size h) in *. set (r := (va - (base + b)) mod block_size h) in *. clearbody q r. nia. }
  assert (I32 : i < 2 ^ 32).
  { clear - NR RI BP L. clearbody i. set (B := block_size h) in *. clearbody B. nia. }
  rewrite N.mod_small in E by exact I32.
  destruct (N.ltb_spec i (table_entries h)) as [LT|]; [|discriminate]. injection E as <-.
  exists i. split; [pose proof (entries_le h (Nat.le_trans _ _ _ (height_le m k h b TR Hk Ho) HH)) as EL; clear - LT EL; clearbody i; lia|].
  split; [reflexivity|]. split; [exact L|]. clear - RI L. clearbody i. lia.
Qed.

(** For an address of the table there is an entry *)
Lemma tte_some : forall base k h b va, own k = (h, b) -> base + b <= va < base + b + table_entries h * block_size h ->
  table_entries h <= 512 ->
  exists p, xlat_get_tte_ptr (mkLlt (taddr T k) (base + b) h) va = Some p.
Proof.
  intros base k h b va Ho Hv TE. unfold xlat_get_tte_ptr. cbn [l_base_va l_height l_table].
  destruct (N.ltb_spec va (base + b)) as [|L]; [clear - Hv H0; lia|]. pose proof (bs_pos h) as BP.
  rewrite N.shiftr_div_pow2. fold (block_size h).
  assert (I : (va - (base + b)) / block_size h < table_entries h).
  { apply N.div_lt_upper_bound; [clear - BP; lia|]. rewrite N.mul_comm. clear - Hv. lia. }
  rewrite N.mod_small by (clear - I TE; set (q := (va - (base + b)) / block_size h) in *; clearbody q; lia).
  destruct (N.ltb_spec ((va - (base + b)) / block_size h) (table_entries h)) as [|C]; [eexists; reflexivity|].
  exfalso. exact (N.lt_irrefl _ (N.lt_le_trans _ _ _ I C)).
Qed.

(** ** The invariant of dynamic mappings *)
Variable trans : N -> bool.

Record good (m : N -> N) : Prop := mkGood {
  gd_tree : D m;
  gd_desc : forall k i, k < nx -> i < 512 -> N.testbit (m (entry_addr (taddr T k) i)) 55 = true ->
    (fst (own k) <= max_block_height A)%nat /\
    (m (entry_addr (taddr T k) i) = TRANSIENT_DESC \/
     (N.testbit (m (entry_addr (taddr T k) i)) 0 = true /\ N.testbit (m (entry_addr (taddr T k) i)) 10 = true /\
      N.testbit (m (entry_addr (taddr T k) i)) 1 = Nat.eqb (fst (own k)) 0));
  gd_trans : forall va, va < 512 * block_size H -> N.testbit (fst (leaf A m H (t_tables T) va)) 55 = trans va
}.

Lemma no_table : forall m k h b i, good m -> k < nx -> own k = (h, b) -> i < 512 ->
  N.testbit (m (entry_addr (taddr T k) i)) 55 = true -> h = 0%nat \/ N.land (m (entry_addr (taddr T k) i)) DESC_MASK <> 3.
Proof.
  intros m k h b i G Hk Ho Hi B. destruct (gd_desc m G k i Hk Hi B) as [_ [E|(B0 & B10 & B1)]].
  - right. rewrite E. discriminate.
  - rewrite Ho in B1. cbn [fst] in B1. destruct h as [|h]; [left; reflexivity|right]. cbn [Nat.eqb] in B1.
    intro E. apply N.eqb_eq in E. rewrite land3, B1, andb_false_r in E. discriminate E.
Qed.

(** Replacing one description of a block that is mapped on demand by another *)
Lemma swap : forall m k h b i v, good m -> k < nx -> own k = (h, b) -> i < 512 ->
  N.testbit (m (entry_addr (taddr T k) i)) 55 = true -> N.testbit v 55 = true ->
  (v = TRANSIENT_DESC \/ (N.testbit v 0 = true /\ N.testbit v 10 = true /\ N.testbit v 1 = Nat.eqb h 0)) ->
  good (set_word m (entry_addr (taddr T k) i) v) /\
  (forall va, b + i * block_size h <= va < b + i * block_size h + block_size h ->
     va < 512 * block_size H /\ leaf A m H (t_tables T) va = (m (entry_addr (taddr T k) i), h) /\
     leaf A (set_word m (entry_addr (taddr T k) i) v) H (t_tables T) va = (v, h)) /\
  (forall va, va < 512 * block_size H -> ~ (b + i * block_size h <= va < b + i * block_size h + block_size h) ->
     leaf A (set_word m (entry_addr (taddr T k) i) v) H (t_tables T) va = leaf A m H (t_tables T) va).
Proof.
  intros m k h b i v G Hk Ho Hi B55 V55 V. pose proof (no_table m k h b i G Hk Ho Hi B55) as NT.
  assert (NV : h = 0%nat \/ N.land v DESC_MASK <> 3).
  { destruct V as [->|(_ & _ & V1)]; [right; discriminate|]. destruct h as [|h]; [left; reflexivity|right]. cbn [Nat.eqb] in V1.
    intro E. apply N.eqb_eq in E. rewrite land3, V1, andb_false_r in E. discriminate E. }
  destruct (write_dyn m k h b i v (gd_tree m G) Hk Ho Hi NT NV) as [TR' LF].
  assert (L1 : forall va, b + i * block_size h <= va < b + i * block_size h + block_size h ->
     va < 512 * block_size H /\ leaf A m H (t_tables T) va = (m (entry_addr (taddr T k) i), h) /\
     leaf A (set_word m (entry_addr (taddr T k) i) v) H (t_tables T) va = (v, h)).
  { intros va Hv. destruct (leaf_at m k h b i va (gd_tree m G) Hk Ho Hi Hv NT) as [P1 P2]. split; [exact P1|]. split; [exact P2|].
    rewrite LF by exact P1. replace ((b + i * block_size h <=? va) && (va <? b + i * block_size h + block_size h)) with true by (clear - Hv; lia).
    reflexivity. }
  split; [|split; [exact L1|]].
  - split.
    + exact TR'.
    + intros k' i' Hk' Hi' B. destruct (N.eq_dec (entry_addr (taddr T k') i') (entry_addr (taddr T k) i)) as [E|NE].
      * rewrite E in *. apply entry_inj in E; try assumption. destruct E as [-> ->].
        assert (AT : set_word m (entry_addr (taddr T k) i) v (entry_addr (taddr T k) i) = v) by (unfold set_word; rewrite N.eqb_refl; reflexivity).
        rewrite AT. split; [apply (gd_desc m G k i Hk Hi B55)|]. rewrite Ho. cbn [fst]. exact V.
      * assert (OT : set_word m (entry_addr (taddr T k) i) v (entry_addr (taddr T k') i') = m (entry_addr (taddr T k') i')).
        { unfold set_word. apply N.eqb_neq in NE. rewrite NE. reflexivity. }
        rewrite OT in B |- *. apply (gd_desc m G k' i' Hk' Hi' B).
    + intros va Hva. rewrite <- (gd_trans m G va Hva).
      destruct ((b + i * block_size h <=? va) && (va <? b + i * block_size h + block_size h)) eqn:C.
      * destruct (L1 va ltac:(clear - C; lia)) as (_ & -> & ->). cbn [fst]. rewrite V55, B55. reflexivity.
      * rewrite LF by exact Hva. rewrite C. reflexivity.
  - intros va Hva NI. rewrite LF by exact Hva.
    replace ((b + i * block_size h <=? va) && (va <? b + i * block_size h + block_size h)) with false by (clear - NI; lia). reflexivity.
Qed.

End Dyn.
