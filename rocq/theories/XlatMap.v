(** xlat_tables_map_region maps a region, and nothing but the region. *)
From Coq Require Import NArith ZArith List Bool Lia ZifyBool ZifyN ZifyNat.
From Verif Require Import Bits Xlat SpecXlat XlatDesc XlatTree.
Import ListNotations.
Local Open Scope N_scope.

Record mm_ok (mm : mmap_region) : Prop := mkMmOk {
  mo_va : mm_va mm mod 4096 = 0;
  mo_size : mm_size mm mod 4096 = 0;
  mo_pos : 0 < mm_size mm;
  mo_end : mm_va mm + mm_size mm <= 2 ^ 52;
  mo_pa : mm_pa mm mod 4096 = 0;
  mo_pend : mm_pa mm + mm_size mm <= 2 ^ 52
}.

Definition bad_type (mm : mmap_region) : Prop :=
  mm_attr mm mod 16 <> 0 /\ mm_attr mm mod 16 <> 2 /\ mm_attr mm mod 16 <> 3.

(** The walk ends in a descriptor of the region for the address *)
Definition mapped (A : xarch) (mm : mmap_region) (va : N) (lk : option (N * nat)) : Prop :=
  exists d h, lk = Some (d, h) /\ (h <= max_block_height A)%nat /\
    mm_va mm <= va / block_size h * block_size h /\
    va / block_size h * block_size h + block_size h <= mm_va mm + mm_size mm /\
    xlat_desc A (mm_attr mm) (mm_pa mm + (va / block_size h * block_size h - mm_va mm)) h = Some d.

Lemma wrap_small : forall x, x < 2 ^ 64 -> wrap64 x = x.
Proof. intros. apply N.mod_small. assumption. Qed.
Lemma wrap_over : forall x y, x = y + 2 ^ 64 -> y < 2 ^ 64 -> wrap64 x = y.
Proof. intros x y -> H. unfold wrap64. rewrite <- (N.mul_1_l (2 ^ 64)) at 1. rewrite N.mod_add by (intro K; discriminate K). apply N.mod_small. exact H. Qed.

Lemma xlat_desc_nz : forall A attr pa h d, xlat_desc A attr pa h = Some d -> d <> 0.
Proof.
  intros A attr pa h d H. destruct (MT_TYPE attr =? MT_TRANSIENT) eqn:T.
  - unfold xlat_desc in H. rewrite T in H. injection H as <-. discriminate.
  - destruct (xlat_desc_flags A attr pa h d H T) as [_ ->].
    intro E. assert (B := f_equal (fun z => N.testbit z 0) E). cbv beta in B. rewrite N.bits_0, N.lor_spec in B.
    pose proof (flags_ok (xa_lpa2 A) (Nat.eqb h 0) (attr mod 16 =? 0) (N.testbit attr 8) (N.testbit attr 4) (N.testbit attr 5)
                (N.testbit attr 7) (N.testbit attr 10) (N.testbit attr 9) false) as F.
    unfold flags_good in F. cbv zeta in F. rewrite N.lor_0_r in F.
    repeat (apply andb_prop in F; let K := fresh "K" in destruct F as [F K]).
    rewrite K9, orb_true_r in B. discriminate.
Qed.

Lemma xlat_desc_none : forall A mm pa h, xlat_desc A (mm_attr mm) pa h = None -> N.land pa (block_mask h) = 0 -> bad_type mm.
Proof.
  intros A mm pa h H P. unfold xlat_desc in H. rewrite P in H. rewrite !mt_type_mod in H. cbn [negb N.eqb] in H.
  unfold MT_TRANSIENT, MT_DEVICE, MT_MEMORY in H. unfold bad_type.
  destruct (N.eqb_spec (mm_attr mm mod 16) 3); [discriminate|].
  destruct (N.eqb_spec (mm_attr mm mod 16) 0); [discriminate|].
  destruct (N.eqb_spec (mm_attr mm mod 16) 2); [discriminate|].
  repeat split; assumption.
Qed.

(** The type of a descriptor that is not a table of a higher level *)
Lemma xlat_desc_kind : forall A attr pa h d, xlat_desc A attr pa h = Some d -> (h = 0)%nat \/ N.land d DESC_MASK <> 3.
Proof.
  intros A attr pa h d H. destruct h as [|h]; [left; reflexivity|right]. intro E.
  assert (B : N.testbit d 1 = true).
  { assert (B := f_equal (fun z => N.testbit z 1) E). cbv beta in B. rewrite N.land_spec in B.
    change (N.testbit DESC_MASK 1) with true in B. rewrite andb_true_r in B. rewrite B. reflexivity. }
  destruct (MT_TYPE attr =? MT_TRANSIENT) eqn:T.
  - unfold xlat_desc in H. rewrite T in H. injection H as <-. discriminate.
  - destruct (xlat_desc_flags A attr pa (S h) d H T) as [_ ->].
    rewrite N.lor_spec, set_oa_low in B by lia.
    pose proof (flags_ok (xa_lpa2 A) (Nat.eqb (S h) 0) (attr mod 16 =? 0) (N.testbit attr 8) (N.testbit attr 4) (N.testbit attr 5)
                (N.testbit attr 7) (N.testbit attr 10) (N.testbit attr 9) false) as F.
    unfold flags_good in F. cbv zeta in F. rewrite N.lor_0_r in F.
    repeat (apply andb_prop in F; let K := fresh "K" in destruct F as [F K]).
    apply eqb_prop in K8. rewrite K8 in B. discriminate.
Qed.

Lemma land_block_mask : forall x h, N.land x (block_mask h) = x mod block_size h.
Proof. intros. unfold block_mask, block_size. rewrite <- N.pred_sub, <- N.ones_equiv. apply N.land_ones. Qed.

Lemma div_block : forall s B va, 0 < B -> s mod B = 0 -> s <= va < s + B -> va / B * B = s.
Proof.
  intros s B va HB Hs Hv. apply N.mod_divide in Hs; [|lia]. destruct Hs as [q ->].
  replace va with (va - q * B + q * B) by lia. rewrite N.div_add, N.div_small by lia. reflexivity.
Qed.

Section Map.
Variables (A : xarch) (T : xtbls) (need : nat -> N -> Prop) (mm : mmap_region).
Hypothesis HT : tbls_ok T.
Hypothesis MM : mm_ok mm.
Hypothesis NEED : forall h v, v mod block_size (S h) = 0 -> v < mm_va mm + mm_size mm -> mm_va mm < v + block_size (S h) -> need h v.

(** Why the function may not return: the type of the region is unknown, or one more
    table is needed than there are *)
Definition cause (root : nat * N) : Prop := bad_type mm \/
  exists own st h v, tree A T need own st /\ x_next st = t_num T /\ own 0 = root /\ (h < fst root)%nat /\ need h v /\
    forall j, j < x_next st -> own j <> (h, v).

Definition hits (lo hi va : N) : bool := in_region mm va && (lo <=? va) && (va <? hi).

Record post (own : N -> nat * N) (st : xst) (own' : N -> nat * N) (st' : xst) (k : N) (h : nat) (b lo hi : N) : Prop := mkPost {
  po_tree : tree A T need own' st';
  po_next : x_next st <= x_next st';
  po_own : forall j, j < x_next st -> own' j = own j;
  po_frame : forall j i, j < x_next st -> i < 512 ->
    ~ ((fst (own j) <= h)%nat /\ b <= snd (own j) < b + 512 * block_size h) ->
    x_mem st' (entry_addr (taddr T j) i) = x_mem st (entry_addr (taddr T j) i);
  po_out : forall a, ~ (t_tables T <= a < t_tables T + 4096 * t_num T) -> x_mem st' a = x_mem st a;
  po_map : forall va, b <= va < b + 512 * block_size h -> hits lo hi va = true ->
    mapped A mm va (look A (x_mem st') h (taddr T k) va);
  po_keep : forall va, b <= va < b + 512 * block_size h -> hits lo hi va = false ->
    look A (x_mem st') h (taddr T k) va = look A (x_mem st) h (taddr T k) va
}.

Definition result_ok own st k h b lo hi (r : xres (xst * N)) : Prop :=
  match r with
  | XPanic => cause (own 0)
  | XOk (st', e) => (exists own', post own st own' st' k h b lo hi) /\ e = N.min (mm_va mm + mm_size mm - 1) (hi - 1)
  end.

Lemma post_trans : forall own st own1 st1 own2 st2 k h b lo mid hi,
  k < x_next st -> lo <= mid <= hi ->
  post own st own1 st1 k h b lo mid -> post own1 st1 own2 st2 k h b mid hi -> post own st own2 st2 k h b lo hi.
Proof.
  intros own st own1 st1 own2 st2 k h b lo mid hi Hk Hm P Q.
  pose proof (po_next _ _ _ _ _ _ _ _ _ P) as N1. pose proof (po_next _ _ _ _ _ _ _ _ _ Q) as N2.
  split.
  - apply (po_tree _ _ _ _ _ _ _ _ _ Q).
  - lia.
  - intros j Hj. rewrite (po_own _ _ _ _ _ _ _ _ _ Q) by lia. apply (po_own _ _ _ _ _ _ _ _ _ P). exact Hj.
  - intros j i Hj Hi Hn. rewrite (po_frame _ _ _ _ _ _ _ _ _ Q); [apply (po_frame _ _ _ _ _ _ _ _ _ P); assumption|lia|exact Hi|].
    rewrite (po_own _ _ _ _ _ _ _ _ _ P) by exact Hj. exact Hn.
  - intros a Ha. rewrite (po_out _ _ _ _ _ _ _ _ _ Q) by exact Ha. apply (po_out _ _ _ _ _ _ _ _ _ P). exact Ha.
  - intros va Hv H. destruct (hits mid hi va) eqn:E.
    + apply (po_map _ _ _ _ _ _ _ _ _ Q); assumption.
    + rewrite (po_keep _ _ _ _ _ _ _ _ _ Q) by assumption. apply (po_map _ _ _ _ _ _ _ _ _ P); [assumption|].
      unfold hits in *. destruct (in_region mm va); cbn [andb] in *; lia.
  - intros va Hv H. rewrite (po_keep _ _ _ _ _ _ _ _ _ Q); [apply (po_keep _ _ _ _ _ _ _ _ _ P); [assumption|]|assumption|];
      unfold hits in *; destruct (in_region mm va); cbn [andb] in *; lia.
Qed.

(** Writing a descriptor into an empty entry of a table *)
Lemma write_post : forall own st k h b i d,
  tree A T need own st -> k < x_next st -> own k = (h, b) -> i < 512 ->
  (h <= max_block_height A)%nat ->
  mm_va mm <= b + i * block_size h -> b + i * block_size h + block_size h <= mm_va mm + mm_size mm ->
  xlat_desc A (mm_attr mm) (mm_pa mm + (b + i * block_size h - mm_va mm)) h = Some d ->
  x_mem st (entry_addr (taddr T k) i) = 0 ->
  post own st own (mkXst (set_word (x_mem st) (entry_addr (taddr T k) i) d) (x_next st)) k h b
    (b + i * block_size h) (b + i * block_size h + block_size h).
Proof.
  intros own st k h b i d TR Hk Ho Hi Hh H1 H2 D Z.
  pose proof (tr_next _ _ _ _ _ TR) as NX.
  assert (AL := tr_al _ _ _ _ _ TR k Hk). rewrite Ho in AL. cbn [fst snd] in AL.
  assert (OT : forall j i', i' < 512 -> ~ (j = k /\ i' = i) ->
     set_word (x_mem st) (entry_addr (taddr T k) i) d (entry_addr (taddr T j) i') = x_mem st (entry_addr (taddr T j) i')).
  { intros j i' Hi' Hn. unfold set_word. destruct (N.eqb_spec (entry_addr (taddr T j) i') (entry_addr (taddr T k) i)) as [E|]; [|reflexivity].
    apply entry_inj in E; tauto. }
  assert (AT : set_word (x_mem st) (entry_addr (taddr T k) i) d (entry_addr (taddr T k) i) = d)
    by (unfold set_word; rewrite N.eqb_refl; reflexivity).
  assert (TR' : tree A T need own (mkXst (set_word (x_mem st) (entry_addr (taddr T k) i) d) (x_next st))).
  { destruct TR as [t1 t2 t3 t4 t4b t4c t5 t6]. split; cbn [x_mem x_next]; try assumption.
    - intros j i' h' Hj Hi' Hf. destruct (N.eq_dec j k) as [->|Hne]; [destruct (N.eq_dec i' i) as [->|Hne]|].
      + rewrite AT. rewrite Ho in Hf. cbn [fst] in Hf. subst h. intro E.
        destruct (xlat_desc_kind _ _ _ _ _ D) as [|K]; [discriminate|contradiction].
      + rewrite OT by tauto. apply t4; assumption.
      + rewrite OT by tauto. apply t4; assumption.
    - intros j Hj. destruct (t4b j Hj) as (kp & ip & P1 & P2 & P3 & P4 & P5). exists kp, ip. rewrite OT; try assumption.
      + repeat split; assumption.
      + intros [-> ->]. rewrite Z in P5. symmetry in P5. apply table_nz in P5. exact P5.
    - intros j i' Hj Hi'. rewrite OT; [apply t5; assumption|exact Hi'|]. intros [-> _]. lia. }
  split; cbn [x_mem x_next].
  - exact TR'.
  - lia.
  - reflexivity.
  - intros j i' Hj Hi' Hn. apply OT; [exact Hi'|]. intros [-> ->]. apply Hn. rewrite Ho. cbn [fst snd]. pose proof (bs_pos h). lia.
  - intros a Ha. unfold set_word. destruct (N.eqb_spec a (entry_addr (taddr T k) i)) as [->|]; [|reflexivity].
    exfalso. apply Ha. unfold entry_addr, taddr. lia.
  - intros va Hv H. exists d, h.
    assert (R : b + i * block_size h <= va < b + i * block_size h + block_size h) by (unfold hits in H; lia).
    assert (DB : va / block_size h * block_size h = b + i * block_size h).
    { apply div_block; [apply bs_pos| |exact R]. clear - AL. unfold algn in AL. rewrite N.mod_add by (pose proof (bs_pos h); lia).
      apply N.mod_divide in AL; [|pose proof (bs_pos h); lia]. destruct AL as [q ->].
      rewrite N.mul_assoc. apply N.mod_mul. pose proof (bs_pos h). lia. }
    rewrite DB. repeat split; try assumption.
    unfold look. pose proof (look_entry A T need own _ h b k i va HT TR' Hk Ho Hi R) as L. cbn [x_mem] in L.
    rewrite L, AT. pose proof (xlat_desc_nz _ _ _ _ _ D) as NZ. pose proof (xlat_desc_kind _ _ _ _ _ D) as KD.
    destruct h as [|h]; cbn [fst].
    + destruct (N.eqb_spec d 0); [contradiction|reflexivity].
    + destruct KD as [|KD]; [discriminate|]. destruct (N.eqb_spec (N.land d DESC_MASK) 3); [contradiction|]. cbn [fst].
      destruct (N.eqb_spec d 0); [contradiction|reflexivity].
  - intros va Hv H. unfold look.
    set (j := va / block_size h mod 512).
    assert (Hj : j < 512) by (apply N.mod_lt; lia).
    assert (R := index_exists b (block_size h) va (bs_pos _) AL Hv). fold j in R.
    assert (Hne : j <> i).
    { intro E. rewrite E in R. unfold hits, in_region in H. clear - H H1 H2 R. lia. }
    pose proof (look_entry A T need own _ h b k j va HT TR' Hk Ho Hj R) as L. cbn [x_mem] in L.
    rewrite L, (look_entry A T need own _ h b k j va HT TR Hk Ho Hj R), OT by (assumption || tauto).
    destruct h as [|h]; [reflexivity|]. cbv zeta.
    destruct (N.eqb_spec (N.land (x_mem st (entry_addr (taddr T k) j)) DESC_MASK) 3) as [E|]; [|reflexivity].
    destruct (tr_entry _ _ _ _ _ TR k j h Hk Hj) as (k' & K0 & K1 & K2 & K3); [rewrite Ho; reflexivity|exact E|].
    rewrite K2. destruct (table_at A T k' HT) as [-> _]; [lia|]. rewrite Ho in K3. cbn [snd] in K3.
    rewrite (leaf_frame A T need own st _ h k' _ va HT TR K1 K3); [reflexivity|rewrite <- bs_S; exact R|].
    intros j' i' Hj' Hi' Hf _. apply OT; [exact Hi'|]. intros [-> _]. rewrite Ho in Hf. cbn [fst] in Hf. lia.
Qed.

(** A region mapped in the table of an entry *)
Lemma sub_post : forall own st own' st' k k' h b i,
  tree A T need own st -> k < x_next st -> own k = (S h, b) -> i < 512 ->
  x_mem st (entry_addr (taddr T k) i) = N.lor TABLE_DESC (taddr T k') -> k' < x_next st ->
  own k' = (h, b + i * block_size (S h)) ->
  post own st own' st' k' h (b + i * block_size (S h)) (b + i * block_size (S h)) (b + i * block_size (S h) + 512 * block_size h) ->
  post own st own' st' k (S h) b (b + i * block_size (S h)) (b + i * block_size (S h) + block_size (S h)).
Proof.
  intros own st own' st' k k' h b i TR Hk Ho Hi He Hk' Ho' P.
  pose proof (tr_next _ _ _ _ _ TR) as NX.
  assert (AL := tr_al _ _ _ _ _ TR k Hk). rewrite Ho in AL. cbn [fst snd] in AL.
  pose proof (po_tree _ _ _ _ _ _ _ _ _ P) as TR'. pose proof (po_next _ _ _ _ _ _ _ _ _ P) as N1.
  assert (Hko : own' k = (S h, b)) by (rewrite (po_own _ _ _ _ _ _ _ _ _ P) by exact Hk; exact Ho).
  assert (KE : forall j, j < 512 -> x_mem st' (entry_addr (taddr T k) j) = x_mem st (entry_addr (taddr T k) j)).
  { intros j Hj. apply (po_frame _ _ _ _ _ _ _ _ _ P); try assumption. rewrite Ho. cbn [fst]. lia. }
  assert (SUB : forall va, b + i * block_size (S h) <= va < b + i * block_size (S h) + block_size (S h) ->
     look A (x_mem st') (S h) (taddr T k) va = look A (x_mem st') h (taddr T k') va /\
     look A (x_mem st) (S h) (taddr T k) va = look A (x_mem st) h (taddr T k') va).
  { intros va Hv. unfold look.
    rewrite (look_entry A T need own' st' (S h) b k i va HT TR' ltac:(lia) Hko Hi Hv).
    rewrite (look_entry A T need own st (S h) b k i va HT TR Hk Ho Hi Hv). rewrite KE by exact Hi. rewrite He.
    cbv zeta. destruct (table_at A T k' HT) as [-> ->]; [lia|]. rewrite N.eqb_refl. split; reflexivity. }
  split.
  - exact TR'.
  - exact N1.
  - apply (po_own _ _ _ _ _ _ _ _ _ P).
  - intros j i' Hj Hi' Hn. apply (po_frame _ _ _ _ _ _ _ _ _ P); try assumption. intros [F1 F2]. apply Hn.
    rewrite <- bs_S in F2. split; [lia|]. clear - F2 Hi. set (B := block_size (S h)) in *. clearbody B. nia.
  - apply (po_out _ _ _ _ _ _ _ _ _ P).
  - intros va Hv H.
    assert (R : b + i * block_size (S h) <= va < b + i * block_size (S h) + block_size (S h)) by (unfold hits in H; lia).
    destruct (SUB va R) as [-> _]. rewrite bs_S in R at 3. rewrite bs_S in H at 3. apply (po_map _ _ _ _ _ _ _ _ _ P); [exact R|exact H].
  - intros va Hv H. set (j := va / block_size (S h) mod 512).
    assert (Hj : j < 512) by (apply N.mod_lt; lia).
    assert (R := index_exists b (block_size (S h)) va (bs_pos _) AL Hv). fold j in R.
    destruct (N.eq_dec j i) as [E|Hne].
    + rewrite E in R. destruct (SUB va R) as [-> ->]. rewrite bs_S in R at 3. rewrite bs_S in H at 3.
      apply (po_keep _ _ _ _ _ _ _ _ _ P); [exact R|exact H].
    + unfold look. rewrite (look_entry A T need own' st' (S h) b k j va HT TR' ltac:(lia) Hko Hj R).
      rewrite (look_entry A T need own st (S h) b k j va HT TR Hk Ho Hj R). rewrite KE by exact Hj. cbv zeta.
      destruct (N.eqb_spec (N.land (x_mem st (entry_addr (taddr T k) j)) DESC_MASK) 3) as [E|]; [|reflexivity].
      destruct (tr_entry _ _ _ _ _ TR k j h Hk Hj) as (k2 & K0 & K1 & K2 & K3); [rewrite Ho; reflexivity|exact E|].
      rewrite K2. destruct (table_at A T k2 HT) as [-> _]; [lia|]. rewrite Ho in K3. cbn [snd] in K3.
      rewrite (leaf_frame A T need own st (x_mem st') h k2 _ va HT TR K1 K3); [reflexivity|rewrite <- bs_S; exact R|].
      intros j' i' Hj' Hi' Hf Hs. apply (po_frame _ _ _ _ _ _ _ _ _ P); try assumption. intros [_ F2].
      rewrite <- bs_S in F2, Hs. clear - F2 Hs Hne. set (B := block_size (S h)) in *. clearbody B.
      destruct (N.lt_ge_cases j i); nia.
Qed.

Lemma leaf_zero : forall own st k h b va, tree A T need own st -> k < x_next st -> own k = (h, b) ->
  (forall i, i < 512 -> x_mem st (entry_addr (taddr T k) i) = 0) -> look A (x_mem st) h (taddr T k) va = None.
Proof.
  intros own st k h b va TR Hk Ho Z. unfold look. destruct h as [|h]; cbn [leaf]; rewrite Z by (apply N.mod_lt; discriminate); reflexivity.
Qed.

(** A new, empty table *)
Lemma create_post : forall own st k h b i,
  tree A T need own st -> k < x_next st -> own k = (S h, b) -> i < 512 ->
  x_mem st (entry_addr (taddr T k) i) = 0 -> x_next st < t_num T ->
  b + i * block_size (S h) < mm_va mm + mm_size mm -> mm_va mm < b + i * block_size (S h) + block_size (S h) ->
  let n := x_next st in
  let own1 := fun j => if j =? n then (h, b + i * block_size (S h)) else own j in
  let st1 := mkXst (set_word (x_mem st) (entry_addr (taddr T k) i) (N.lor TABLE_DESC (taddr T n))) (n + 1) in
  post own st own1 st1 k (S h) b (b + i * block_size (S h)) (b + i * block_size (S h)) /\
  x_mem st1 (entry_addr (taddr T k) i) = N.lor TABLE_DESC (taddr T n) /\
  own1 n = (h, b + i * block_size (S h)) /\ (forall j, j < 512 -> x_mem st1 (entry_addr (taddr T n) j) = 0).
Proof.
  intros own st k h b i TR Hk Ho Hi Z Hn HA HB n own1 st1.
  pose proof (tr_next _ _ _ _ _ TR) as NX.
  assert (AL := tr_al _ _ _ _ _ TR k Hk). rewrite Ho in AL. cbn [fst snd] in AL.
  assert (On : own1 n = (h, b + i * block_size (S h))) by (unfold own1; rewrite N.eqb_refl; reflexivity).
  assert (Oo : forall j, j < n -> own1 j = own j).
  { intros j Hj. unfold own1. destruct (N.eqb_spec j n); [lia|reflexivity]. }
  assert (OT : forall j i', i' < 512 -> ~ (j = k /\ i' = i) -> x_mem st1 (entry_addr (taddr T j) i') = x_mem st (entry_addr (taddr T j) i')).
  { intros j i' Hi' Hne. unfold st1, set_word. cbn [x_mem].
    destruct (N.eqb_spec (entry_addr (taddr T j) i') (entry_addr (taddr T k) i)) as [E|]; [|reflexivity]. apply entry_inj in E; tauto. }
  assert (AT : x_mem st1 (entry_addr (taddr T k) i) = N.lor TABLE_DESC (taddr T n))
    by (unfold st1, set_word; cbn [x_mem]; rewrite N.eqb_refl; reflexivity).
  assert (ZN : forall j, j < 512 -> x_mem st1 (entry_addr (taddr T n) j) = 0).
  { intros j Hj. rewrite OT; [apply (tr_zero _ _ _ _ _ TR); [unfold n; lia|exact Hj]|exact Hj|]. intros [E _]. unfold n in E. lia. }
  assert (ALn : algn (b + i * block_size (S h)) (512 * block_size h)).
  { clear - AL. unfold algn in *. rewrite <- bs_S. rewrite N.mod_add by (pose proof (bs_pos (S h)); lia).
    apply N.mod_divide in AL; [|pose proof (bs_pos (S h)); lia]. destruct AL as [q ->].
    rewrite N.mul_assoc. apply N.mod_mul. pose proof (bs_pos (S h)). lia. }
  (* no other table has this place *)
  assert (FR : forall j, j < n -> own j <> (h, b + i * block_size (S h))).
  { intros j Hj E. destruct (N.eq_dec j 0) as [->|Hj0].
    - pose proof (tr_root _ _ _ _ _ TR k Hk) as R. rewrite E, Ho in R. cbn [fst] in R. lia.
    - destruct (tr_parent _ _ _ _ _ TR j) as (kp & ip & P1 & P2 & P3 & P4 & P5); [unfold n in Hj; lia|].
      rewrite E in P3, P4. cbn [fst snd] in P3, P4. rewrite P3 in P4.
      assert (ALp := tr_al _ _ _ _ _ TR kp P1). rewrite P3 in ALp.
      assert (V : snd (own kp) = b /\ ip = i).
      { destruct (same_place b (snd (own kp)) (block_size (S h)) i ip (bs_pos _) AL ALp Hi P2 P4) as [<- <-]. split; reflexivity. }
      destruct V as [V1 ->].
      assert (kp = k). { apply (tr_inj _ _ _ _ _ TR); try assumption. rewrite Ho, (surjective_pairing (own kp)), P3, V1. reflexivity. }
      subst kp. rewrite Z in P5. symmetry in P5. apply table_nz in P5. exact P5. }
  assert (TR1 : tree A T need own1 st1).
  { pose proof TR as [t1 t2 t3 t4 t4b t4c t5 t6]. fold n in t1, t2, t3, t4, t4b, t4c, t5, t6.
    split; cbn [st1 x_next].
    - unfold n in *; lia.
    - intros j Hj. destruct (N.eq_dec j n) as [->|]; [rewrite On; exact ALn|rewrite Oo by lia; apply t2; lia].
    - intros j j' Hj Hj'. destruct (N.eq_dec j n) as [->|], (N.eq_dec j' n) as [->|].
      + reflexivity.
      + rewrite On, (Oo j') by lia. intro E. symmetry in E. apply FR in E; [contradiction|lia].
      + rewrite On, (Oo j) by lia. intro E. apply FR in E; [contradiction|lia].
      + rewrite !Oo by lia. apply t3; lia.
    - intros j i' h' Hj Hi' Hf E. destruct (N.eq_dec j n) as [->|Hne].
      { change (x_mem st1 (entry_addr (taddr T n) i')) with (x_mem st1 (entry_addr (taddr T n) i')) in E. rewrite ZN in E by exact Hi'. discriminate E. }
      rewrite (Oo j) in Hf by lia. rewrite (Oo j) by lia.
      destruct (N.eq_dec j k) as [->|Hjk]; [destruct (N.eq_dec i' i) as [->|Hii]|].
      + exists n. rewrite Ho in Hf. cbn [fst] in Hf. injection Hf as <-. rewrite On, Ho. cbn [snd]. repeat split; [unfold n; lia|lia|exact AT].
      + rewrite OT in E by tauto. rewrite OT by tauto. destruct (t4 k i' h' ltac:(lia) Hi' Hf E) as (k' & K0 & K1 & K2 & K3).
        exists k'. rewrite Oo by exact K1. repeat split; try assumption. lia.
      + rewrite OT in E by tauto. rewrite OT by tauto. destruct (t4 j i' h' ltac:(lia) Hi' Hf E) as (k' & K0 & K1 & K2 & K3).
        exists k'. rewrite Oo by exact K1. repeat split; try assumption. lia.
    - intros j Hj. destruct (N.eq_dec j n) as [->|Hne].
      + exists k, i. rewrite On, (Oo k) by (unfold n; exact Hk). rewrite Ho. cbn [fst snd]. repeat split; [unfold n; lia|exact Hi|exact AT].
      + destruct (t4b j ltac:(lia)) as (kp & ip & P1 & P2 & P3 & P4 & P5). exists kp, ip.
        rewrite (Oo j), (Oo kp) by lia. rewrite OT; [repeat split; try assumption; lia|exact P2|].
        intros [-> ->]. rewrite Z in P5. symmetry in P5. apply table_nz in P5. exact P5.
    - intros j Hj. rewrite (Oo 0) by (unfold n; lia). destruct (N.eq_dec j n) as [->|Hne].
      + rewrite On. cbn [fst]. pose proof (t4c k Hk) as R. rewrite Ho in R. cbn [fst] in R. lia.
      + rewrite Oo by lia. apply t4c. lia.
    - intros j i' Hj Hi'. change (x_mem st1 (entry_addr (taddr T j) i') = 0). rewrite OT; [apply t5; [lia|exact Hi']|exact Hi'|].
      intros [-> _]. unfold n in Hj. lia.
    - intros j Hj. destruct (N.eq_dec j n) as [->|Hne].
      + rewrite On. cbn [fst snd]. apply NEED; [unfold algn in ALn; rewrite <- bs_S in ALn; exact ALn|exact HA|exact HB].
      + rewrite Oo by lia. apply t6. lia. }
  split; [|split; [exact AT|split; [exact On|exact ZN]]].
  assert (KP : forall va, b <= va < b + 512 * block_size (S h) ->
     look A (x_mem st1) (S h) (taddr T k) va = look A (x_mem st) (S h) (taddr T k) va).
  { intros va Hv. set (j := va / block_size (S h) mod 512).
    assert (Hj : j < 512) by (apply N.mod_lt; lia).
    assert (R := index_exists b (block_size (S h)) va (bs_pos _) AL Hv). fold j in R.
    assert (Ok1 : own1 k = (S h, b)) by (rewrite Oo by exact Hk; exact Ho).
    assert (Hk1 : k < x_next st1) by (unfold st1, n; cbn [x_next]; lia).
    unfold look. rewrite (look_entry A T need own1 st1 (S h) b k j va HT TR1 Hk1 Ok1 Hj R).
    rewrite (look_entry A T need own st (S h) b k j va HT TR Hk Ho Hj R). cbv zeta.
    destruct (N.eq_dec j i) as [->|Hne].
    - rewrite AT, Z. destruct (table_at A T n HT Hn) as [-> ->]. cbn [N.eqb Pos.eqb].
      assert (L := leaf_zero own1 st1 n h _ va TR1 ltac:(unfold st1; cbn [x_next]; lia) On ZN).
      unfold look in L. exact L.
    - rewrite OT by tauto.
      destruct (N.eqb_spec (N.land (x_mem st (entry_addr (taddr T k) j)) DESC_MASK) 3) as [E|]; [|reflexivity].
      destruct (tr_entry _ _ _ _ _ TR k j h Hk Hj) as (k2 & K0 & K1 & K2 & K3); [rewrite Ho; reflexivity|exact E|].
      rewrite K2. destruct (table_at A T k2 HT) as [-> _]; [lia|]. rewrite Ho in K3. cbn [snd] in K3.
      rewrite (leaf_frame A T need own st (x_mem st1) h k2 _ va HT TR K1 K3); [reflexivity|rewrite <- bs_S; exact R|].
      intros j' i' Hj' Hi' Hf Hs. apply OT; [exact Hi'|]. intros [-> _]. rewrite Ho in Hf. cbn [fst] in Hf. lia. }
  split.
  - exact TR1.
  - unfold st1, n. cbn [x_next]. lia.
  - exact Oo.
  - intros j i' Hj Hi' Hne. apply OT; [exact Hi'|]. intros [-> ->]. apply Hne. rewrite Ho. cbn [fst snd]. pose proof (bs_pos (S h)). lia.
  - intros a Ha. unfold st1, set_word. cbn [x_mem]. destruct (N.eqb_spec a (entry_addr (taddr T k) i)) as [->|]; [|reflexivity].
    exfalso. apply Ha. unfold entry_addr, taddr. lia.
  - intros va Hv H. unfold hits in H. lia.
  - intros va Hv _. apply KP. exact Hv.
Qed.

Lemma post_refl : forall own st k h b lo hi, tree A T need own st ->
  (forall va, hits lo hi va = false) -> post own st own st k h b lo hi.
Proof.
  intros own st k h b lo hi TR H. split; try (intros; reflexivity); [exact TR|].
  intros va _ E. rewrite H in E. discriminate.
Qed.

Lemma post_weaken : forall own st own' st' k h b lo hi lo' hi', post own st own' st' k h b lo hi ->
  (forall va, b <= va < b + 512 * block_size h -> hits lo' hi' va = hits lo hi va) ->
  post own st own' st' k h b lo' hi'.
Proof.
  intros own st own' st' k h b lo hi lo' hi' P E. destruct P as [p1 p2 p3 p4 p5 p6 p7]. split; try assumption.
  - intros va Hv H. rewrite E in H by exact Hv. apply p6; assumption.
  - intros va Hv H. rewrite E in H by exact Hv. apply p7; assumption.
Qed.

Definition sub_ok (h : nat) (sub : N -> N -> xst -> xres (xst * N)) : Prop :=
  match h with
  | O => True
  | S h' => forall own st k b, tree A T need own st -> k < x_next st -> own k = (h', b) ->
      b + 512 * block_size h' <= 2 ^ 52 -> b < mm_va mm + mm_size mm -> mm_va mm < b + 512 * block_size h' ->
      (forall va, hits b (b + 512 * block_size h') va = true -> look A (x_mem st) h' (taddr T k) va = None) ->
      result_ok own st k h' b b (b + 512 * block_size h') (sub b (taddr T k) st)
  end.

Definition after_entry (h : nat) (sub : N -> N -> xst -> xres (xst * N)) (table : N) (n : nat) (idx idx_va : N) (st : xst) : xres (xst * N) :=
  let idx_va := wrap64 (idx_va + block_size h) in
  if wrap64 (mm_va mm + mm_size mm + (2 ^ 64 - 1)) <=? idx_va
  then XOk (st, wrap64 (idx_va + (2 ^ 64 - 1)))
  else map_loop A T mm h sub table n (idx + 1) idx_va st.
Definition after_sub (h : nat) (sub : N -> N -> xst -> xres (xst * N)) (table : N) (n : nat) (idx idx_va subtable : N) (st : xst) : xres (xst * N) :=
  match sub idx_va subtable st with
  | XPanic => XPanic
  | XOk (st, end_va) =>
      if negb (end_va =? wrap64 (idx_va + block_size h - 1)) then XOk (st, end_va) else after_entry h sub table n idx idx_va st
  end.

Lemma map_loop_S : forall h sub table n idx idx_va st,
  map_loop A T mm h sub table (S n) idx idx_va st =
  let desc := x_mem st (entry_addr table idx) in
  let idx_pa := wrap64 (mm_pa mm + idx_va + (2 ^ 64 - mm_va mm)) in
  match map_region_action A mm (N.land desc DESC_MASK) idx_pa idx_va h with
  | None => XPanic
  | Some AWrite =>
      match xlat_desc A (mm_attr mm) idx_pa h with
      | None => XPanic
      | Some d => after_entry h sub table n idx idx_va (mkXst (set_word (x_mem st) (entry_addr table idx) d) (x_next st))
      end
  | Some ACreate =>
      if x_next st <? t_num T then
        after_sub h sub table n idx idx_va (t_tables T + 4096 * x_next st)
          (mkXst (set_word (x_mem st) (entry_addr table idx) (N.lor TABLE_DESC (t_tables T + 4096 * x_next st))) (x_next st + 1))
      else XPanic
  | Some ARecurse => after_sub h sub table n idx idx_va (get_oa A desc) st
  | Some ANone => after_entry h sub table n idx idx_va st
  end.
Proof. reflexivity. Qed.

(** What is known of the entry when the region reaches into it *)
Lemma action_cases : forall own st k h b i,
  tree A T need own st -> k < x_next st -> own k = (h, b) -> i < 512 ->
  let s := b + i * block_size h in
  let d := x_mem st (entry_addr (taddr T k) i) in
  s + block_size h <= 2 ^ 52 -> s < mm_va mm + mm_size mm -> mm_va mm < s + block_size h ->
  (forall va, in_region mm va = true -> s <= va < s + block_size h -> look A (x_mem st) h (taddr T k) va = None) ->
  let pa := wrap64 (mm_pa mm + s + (2 ^ 64 - mm_va mm)) in
  (map_region_action A mm (N.land d DESC_MASK) pa s h = Some AWrite /\ d = 0 /\
   mm_va mm <= s /\ s + block_size h <= mm_va mm + mm_size mm /\ (h <= max_block_height A)%nat /\
   pa = mm_pa mm + (s - mm_va mm) /\ N.land pa (block_mask h) = 0) \/
  (map_region_action A mm (N.land d DESC_MASK) pa s h = Some ACreate /\ d = 0 /\ exists h', h = S h') \/
  (map_region_action A mm (N.land d DESC_MASK) pa s h = Some ARecurse /\ N.land d DESC_MASK = 3 /\ exists h', h = S h').
Proof.
  intros own st k h b i TR Hk Ho Hi s d HS H1 H2 CL pa.
  pose proof (bs_pos h) as BP. destruct MM as [m1 m2 m3 m4 m5 m6].
  assert (ALG : s mod 4096 = 0).
  { assert (AL := tr_al _ _ _ _ _ TR k Hk). rewrite Ho in AL. cbn [fst snd] in AL. unfold algn in AL. clear - AL BP. subst s.
    pose proof (bs_page h) as PG. apply N.mod_divide in AL; [|lia]. destruct AL as [q ->].
    apply N.mod_divide in PG; [|lia]. destruct PG as [r ->].
    replace (q * (512 * (r * 4096)) + i * (r * 4096)) with ((q * 512 * r + i * r) * 4096) by lia. apply N.mod_mul. lia. }
  (* an address of the region in the entry *)
  assert (W : exists va, in_region mm va = true /\ s <= va < s + block_size h).
  { exists (N.max s (mm_va mm)). unfold in_region. clear - H1 H2 m3 BP. clearbody s. lia. }
  assert (DZ : N.land d DESC_MASK = 3 /\ h <> O \/ d = 0).
  { destruct W as (va & W1 & W2). specialize (CL va W1 W2). unfold look in CL.
    rewrite (look_entry A T need own st h b k i va HT TR Hk Ho Hi W2) in CL. cbv zeta in CL. fold d in CL.
    destruct h as [|h].
    - right. cbn [fst] in CL. destruct (N.eqb_spec d 0); [assumption|discriminate].
    - destruct (N.eqb_spec (N.land d DESC_MASK) 3) as [E|]; [left; split; [exact E|discriminate]|].
      right. cbn [fst] in CL. destruct (N.eqb_spec d 0); [assumption|discriminate]. }
  assert (E1 : wrap64 (mm_va mm + mm_size mm + (2 ^ 64 - 1)) = mm_va mm + mm_size mm - 1).
  { apply wrap_over; clear - m3 m4; lia. }
  assert (E2 : wrap64 (s + block_size h - 1) = s + block_size h - 1) by (apply wrap_small; clear - HS; clearbody s; lia).
  unfold map_region_action. rewrite E1, E2. unfold TABLE_DESC, PAGE_DESC, BLOCK_DESC, INVALID_DESC.
  destruct (N.leb_spec (mm_va mm) s) as [C1|C1], (N.leb_spec (s + block_size h - 1) (mm_va mm + mm_size mm - 1)) as [C2|C2]; cbn [andb].
  - assert (PA : pa = mm_pa mm + (s - mm_va mm)).
    { unfold pa. apply wrap_over; clear - m4 m6 C1 C2 H1 HS m3 BP; clearbody s; lia. }
    assert (C3 : s + block_size h <= mm_va mm + mm_size mm) by (clear - C2 BP m3; clearbody s; lia).
    destruct h as [|h].
    + destruct DZ as [[_ []]|DZ]; [reflexivity|]. rewrite DZ. cbn [N.land N.eqb negb]. left.
      repeat split; try assumption; try lia. rewrite PA, land_block_mask, bs_0.
      clear - m1 m5 ALG C1. clearbody s. lia.
    + destruct DZ as [[DZ _]|DZ].
      * right; right. rewrite DZ. cbn [N.eqb Pos.eqb]. repeat split. exists h. reflexivity.
      * rewrite DZ. cbn [N.land N.eqb negb].
        destruct (N.eqb_spec (N.land pa (block_mask (S h))) 0) as [P0|]; cbn [negb orb].
        2:{ right; left. repeat split. exists h. reflexivity. }
        destruct (Nat.ltb (max_block_height A) (S h)) eqn:MB; cbn [orb].
        1:{ right; left. repeat split. exists h. reflexivity. }
        destruct (mm_gran mm <? block_size (S h)).
        1:{ right; left. repeat split. exists h. reflexivity. }
        left. apply Nat.ltb_ge in MB. repeat split; assumption.
  - assert (CC : (mm_va mm <=? s + block_size h - 1) || (s <=? mm_va mm + mm_size mm - 1) = true) by (clear - H1 H2 m3; clearbody s; lia).
    rewrite CC. destruct h as [|h].
    + exfalso. rewrite bs_0 in *. clear - C1 C2 ALG m1 m2 H1 H2. clearbody s. lia.
    + destruct DZ as [[DZ _]|DZ]; rewrite DZ; cbn [N.land N.eqb Pos.eqb negb]; right; [right|left]; repeat split; exists h; reflexivity.
  - assert (CC : (mm_va mm <=? s + block_size h - 1) || (s <=? mm_va mm + mm_size mm - 1) = true) by (clear - H1 H2 m3; clearbody s; lia).
    rewrite CC. destruct h as [|h].
    + exfalso. rewrite bs_0 in *. clear - C1 C2 ALG m1 m2 H1 H2. clearbody s. lia.
    + destruct DZ as [[DZ _]|DZ]; rewrite DZ; cbn [N.land N.eqb Pos.eqb negb]; right; [right|left]; repeat split; exists h; reflexivity.
  - assert (CC : (mm_va mm <=? s + block_size h - 1) || (s <=? mm_va mm + mm_size mm - 1) = true) by (clear - H1 H2 m3; clearbody s; lia).
    rewrite CC. destruct h as [|h].
    + exfalso. rewrite bs_0 in *. clear - C1 C2 ALG m1 m2 H1 H2. clearbody s. lia.
    + destruct DZ as [[DZ _]|DZ]; rewrite DZ; cbn [N.land N.eqb Pos.eqb negb]; right; [right|left]; repeat split; exists h; reflexivity.
Qed.

Lemma hits_wide : forall lo hi hi' va, mm_va mm + mm_size mm <= hi -> hi <= hi' -> hits lo hi' va = hits lo hi va.
Proof. intros. unfold hits, in_region. lia. Qed.

Definition loop_ok (h : nat) (sub : N -> N -> xst -> xres (xst * N)) (n : nat) : Prop :=
  forall own st k b i E, tree A T need own st -> k < x_next st -> own k = (h, b) -> i + N.of_nat n = E -> 0 < E <= 512 ->
    b + E * block_size h <= 2 ^ 52 ->
    b + i * block_size h < mm_va mm + mm_size mm -> mm_va mm < b + i * block_size h + block_size h ->
    (forall va, hits (b + i * block_size h) (b + E * block_size h) va = true -> look A (x_mem st) h (taddr T k) va = None) ->
    result_ok own st k h b (b + i * block_size h) (b + E * block_size h)
      (map_loop A T mm h sub (taddr T k) n i (b + i * block_size h) st).

Lemma after_entry_ok : forall h sub n own st own1 st1 k b i E, loop_ok h sub n ->
  tree A T need own st -> k < x_next st -> own k = (h, b) -> i + 1 + N.of_nat n = E -> E <= 512 ->
  b + E * block_size h <= 2 ^ 52 ->
  mm_va mm < b + i * block_size h + block_size h ->
  b + i * block_size h + block_size h <= mm_va mm + mm_size mm ->
  (forall va, hits (b + i * block_size h) (b + E * block_size h) va = true -> look A (x_mem st) h (taddr T k) va = None) ->
  post own st own1 st1 k h b (b + i * block_size h) (b + i * block_size h + block_size h) ->
  result_ok own st k h b (b + i * block_size h) (b + E * block_size h)
    (after_entry h sub (taddr T k) n i (b + i * block_size h) st1).
Proof.
  intros h sub n own st own1 st1 k b i E IH TR Hk Ho HE HE' HL H1 H2 CL P.
  pose proof (bs_pos h) as BP. destruct MM as [m1 m2 m3 m4 m5 m6].
  assert (SE : b + i * block_size h + block_size h <= b + E * block_size h).
  { clear - HE. set (B := block_size h). clearbody B. nia. }
  assert (EE : E * block_size h <= 512 * block_size h) by (apply N.mul_le_mono_r; exact HE').
  unfold after_entry. cbv zeta.
  assert (W1 : wrap64 (b + i * block_size h + block_size h) = b + i * block_size h + block_size h)
    by (apply wrap_small; clear - SE HL; lia).
  assert (W2 : wrap64 (mm_va mm + mm_size mm + (2 ^ 64 - 1)) = mm_va mm + mm_size mm - 1)
    by (apply wrap_over; clear - m3 m4; lia).
  rewrite W1, W2.
  assert (ALG : (b + i * block_size h + block_size h) mod 4096 = 0).
  { assert (AL := tr_al _ _ _ _ _ TR k Hk). rewrite Ho in AL. cbn [fst snd] in AL. unfold algn in AL. clear - AL BP.
    pose proof (bs_page h) as PG. apply N.mod_divide in AL; [|lia]. destruct AL as [q ->].
    apply N.mod_divide in PG; [|lia]. destruct PG as [r ->].
    replace (q * (512 * (r * 4096)) + i * (r * 4096) + r * 4096) with ((q * 512 * r + i * r + r) * 4096) by lia. apply N.mod_mul. lia. }
  destruct (N.leb_spec (mm_va mm + mm_size mm - 1) (b + i * block_size h + block_size h)) as [C|C].
  - assert (EQ : mm_va mm + mm_size mm = b + i * block_size h + block_size h).
    { clear - ALG C H2 m1 m2 m3. set (e := b + i * block_size h + block_size h) in *. clearbody e. lia. }
    cbn [result_ok]. split.
    + exists own1. apply (post_weaken _ _ _ _ _ _ _ _ _ _ _ P). intros va _. apply hits_wide; [clear - EQ; lia|exact SE].
    + rewrite (wrap_over _ (b + i * block_size h + block_size h - 1)).
      * clear - EQ SE BP HL. lia.
      * clear - BP. lia.
      * clear - SE HL. lia.
  - assert (X : b + i * block_size h + block_size h = b + (i + 1) * block_size h) by (clear; lia).
    pose proof (po_tree _ _ _ _ _ _ _ _ _ P) as TR1. pose proof (po_next _ _ _ _ _ _ _ _ _ P) as N1.
    assert (R := IH own1 st1 k b (i + 1) E TR1 ltac:(clear - N1 Hk; lia)). rewrite <- X in R.
    specialize (R ltac:(rewrite (po_own _ _ _ _ _ _ _ _ _ P) by exact Hk; exact Ho) HE ltac:(clear - HE HE'; lia) HL
                  ltac:(clear - C; lia) ltac:(clear - H1; lia)).
    assert (CL1 : forall va, hits (b + i * block_size h + block_size h) (b + E * block_size h) va = true -> look A (x_mem st1) h (taddr T k) va = None).
    { intros va Hv. assert (RG : b <= va < b + 512 * block_size h) by (unfold hits in Hv; clear - Hv EE; lia).
      rewrite (po_keep _ _ _ _ _ _ _ _ _ P va RG); [apply CL; unfold hits in *; clear - Hv; destruct (in_region mm va); cbn [andb] in *; [lia|discriminate]|unfold hits in *; clear - Hv; destruct (in_region mm va); cbn [andb] in *; lia]. }
    specialize (R CL1).
    destruct (map_loop A T mm h sub (taddr T k) n (i + 1) (b + i * block_size h + block_size h) st1) as [[st2 e]|].
    2:{ cbn [result_ok] in *. rewrite <- (po_own _ _ _ _ _ _ _ _ _ P 0) by (clear - Hk; lia). exact R. }
    cbn [result_ok] in *. destruct R as [[own2 P2] R]. split; [|exact R].
    exists own2. apply (post_trans own st own1 st1 own2 st2 k h b (b + i * block_size h) (b + i * block_size h + block_size h));
      [exact Hk|clear - SE; lia|exact P|exact P2].
Qed.

(** The recursive call for an entry with a table *)
Lemma after_sub_ok : forall h sub n own st own1 st1 k k' b i E, loop_ok (S h) sub n -> sub_ok (S h) sub ->
  tree A T need own st -> k < x_next st -> own k = (S h, b) -> i + 1 + N.of_nat n = E -> E <= 512 ->
  b + E * block_size (S h) <= 2 ^ 52 ->
  b + i * block_size (S h) < mm_va mm + mm_size mm -> mm_va mm < b + i * block_size (S h) + block_size (S h) ->
  (forall va, hits (b + i * block_size (S h)) (b + E * block_size (S h)) va = true -> look A (x_mem st) (S h) (taddr T k) va = None) ->
  post own st own1 st1 k (S h) b (b + i * block_size (S h)) (b + i * block_size (S h)) ->
  k' < x_next st1 -> own1 k' = (h, b + i * block_size (S h)) ->
  x_mem st1 (entry_addr (taddr T k) i) = N.lor TABLE_DESC (taddr T k') ->
  result_ok own st k (S h) b (b + i * block_size (S h)) (b + E * block_size (S h))
    (after_sub (S h) sub (taddr T k) n i (b + i * block_size (S h)) (taddr T k') st1).
Proof.
  intros h sub n own st own1 st1 k k' b i E IH SUB TR Hk Ho HE HE' HL H1 H2 CL P Hk' Ho' He.
  pose proof (bs_pos (S h)) as BP. pose proof MM as MMo. destruct MM as [m1 m2 m3 m4 m5 m6].
  assert (SE : b + i * block_size (S h) + block_size (S h) <= b + E * block_size (S h)).
  { clear - HE. set (B := block_size (S h)). clearbody B. nia. }
  assert (EE : E * block_size (S h) <= 512 * block_size (S h)) by (apply N.mul_le_mono_r; exact HE').
  pose proof (po_tree _ _ _ _ _ _ _ _ _ P) as TR1. pose proof (po_next _ _ _ _ _ _ _ _ _ P) as N1.
  assert (Hk1 : k < x_next st1) by (clear - Hk N1; lia).
  assert (Hko : own1 k = (S h, b)) by (rewrite (po_own _ _ _ _ _ _ _ _ _ P) by exact Hk; exact Ho).
  assert (Hi : i < 512) by (clear - HE HE'; lia).
  assert (XX : b + i * block_size (S h) + 512 * block_size h = b + i * block_size (S h) + block_size (S h)) by (rewrite <- bs_S; reflexivity).
  assert (S1 : result_ok own1 st1 k' h (b + i * block_size (S h)) (b + i * block_size (S h))
                 (b + i * block_size (S h) + 512 * block_size h) (sub (b + i * block_size (S h)) (taddr T k') st1)).
  { apply SUB; try assumption.
    - rewrite XX. clear - SE HL. lia.
    - rewrite XX. exact H2.
    - rewrite XX. intros va Hv.
      assert (R : b + i * block_size (S h) <= va < b + i * block_size (S h) + block_size (S h)) by (unfold hits in Hv; clear - Hv; lia).
      assert (RG : b <= va < b + 512 * block_size (S h)) by (clear - R SE EE; lia).
      assert (C1 : look A (x_mem st1) (S h) (taddr T k) va = None).
      { rewrite (po_keep _ _ _ _ _ _ _ _ _ P va RG); [apply CL; unfold hits in *; clear - Hv SE; destruct (in_region mm va); cbn [andb] in *; [lia|discriminate]|unfold hits in *; clear - Hv; destruct (in_region mm va); cbn [andb] in *; lia]. }
      unfold look in C1. rewrite (look_entry A T need own1 st1 (S h) b k i va HT TR1 Hk1 Hko Hi R) in C1. rewrite He in C1. cbv zeta in C1.
      destruct (table_at A T k' HT) as [T1 T2]; [pose proof (tr_next _ _ _ _ _ TR1) as NX; clear - NX Hk'; lia|].
      rewrite T1, T2 in C1. exact C1. }
  unfold after_sub.
  destruct (sub (b + i * block_size (S h)) (taddr T k') st1) as [[st2 e]|].
  2:{ cbn [result_ok] in *. rewrite <- (po_own _ _ _ _ _ _ _ _ _ P 0) by (clear - Hk; lia). exact S1. }
  cbn [result_ok] in S1. destruct S1 as [[own2 P2] Ee]. rewrite XX in Ee.
  assert (P3 : post own st own2 st2 k (S h) b (b + i * block_size (S h)) (b + i * block_size (S h) + block_size (S h))).
  { apply (post_trans own st own1 st1 own2 st2 k (S h) b _ (b + i * block_size (S h))); [exact Hk|clear - BP; lia|exact P|].
    apply (sub_post own1 st1 own2 st2 k k' h b i); assumption. }
  assert (W1 : wrap64 (b + i * block_size (S h) + block_size (S h) - 1) = b + i * block_size (S h) + block_size (S h) - 1)
    by (apply wrap_small; clear - SE HL; lia).
  rewrite W1. destruct (N.eqb_spec e (b + i * block_size (S h) + block_size (S h) - 1)) as [C|C]; cbn [negb].
  - apply (after_entry_ok (S h) sub n own st own2 st2 k b i E); try assumption. clear - C Ee BP m3. lia.
  - cbn [result_ok]. split.
    + exists own2. apply (post_weaken _ _ _ _ _ _ _ _ _ _ _ P3). intros va _. apply hits_wide; [clear - C Ee BP m3; lia|exact SE].
    + clear - C Ee SE. lia.
Qed.

Lemma loop_all : forall h sub n, sub_ok h sub -> loop_ok h sub n.
Proof.
  intros h sub n SUB. induction n as [|n IH]; intros own st k b i E TR Hk Ho HE HE' HL H1 H2 CL.
  - pose proof (bs_pos h) as BP. destruct MM as [m1 m2 m3 m4 m5 m6].
    assert (i = E) by (clear - HE; lia). subst i. cbn [map_loop result_ok]. split.
    + exists own. apply post_refl; [exact TR|]. intro va. unfold hits. clear. lia.
    + assert (0 < E * block_size h) by (clear - BP HE'; set (B := block_size h) in *; clearbody B; nia).
      rewrite (wrap_over _ (b + E * block_size h - 1)); clear - H HL H1 m3; lia.
  - pose proof (bs_pos h) as BP.
    assert (HE2 : i + 1 + N.of_nat n = E) by (clear - HE; lia).
    assert (Hi : i < 512) by (clear - HE2 HE'; lia).
    assert (SE : b + i * block_size h + block_size h <= b + E * block_size h).
    { clear - HE2. set (B := block_size h). clearbody B. nia. }
    rewrite map_loop_S. cbv zeta.
    assert (HS : b + i * block_size h + block_size h <= 2 ^ 52) by (clear - SE HL; lia).
    destruct (action_cases own st k h b i TR Hk Ho Hi HS H1 H2) as [(AC & D & C1 & C2 & C3 & PA & PM)|[(AC & D & h' & Hh)|(AC & D & h' & Hh)]].
    { intros va V1 V2. apply CL. unfold hits. rewrite V1. clear - V2 SE. lia. }
    + rewrite AC. rewrite PA. rewrite PA in PM.
      destruct (xlat_desc A (mm_attr mm) (mm_pa mm + (b + i * block_size h - mm_va mm)) h) as [d|] eqn:XD.
      * apply (after_entry_ok h sub n own st own _ k b i E); try assumption; [exact (proj2 HE')|].
        apply write_post; assumption.
      * cbn [result_ok]. left. apply (xlat_desc_none A mm _ h XD PM).
    + rewrite AC. subst h. destruct (N.ltb_spec (x_next st) (t_num T)) as [C|C].
      * destruct (create_post own st k h' b i TR Hk Ho Hi D C H1 H2) as (P & Q1 & Q2 & Q3).
        apply (after_sub_ok h' sub n own st _ _ k (x_next st) b i E IH SUB TR Hk Ho HE2 (proj2 HE') HL H1 H2 CL P).
        -- cbn [x_next]. clear. lia.
        -- exact Q2.
        -- exact Q1.
      * cbn [result_ok]. right. exists own, st, h', (b + i * block_size (S h')).
        pose proof (tr_next _ _ _ _ _ TR) as NX. pose proof (tr_root _ _ _ _ _ TR k Hk) as RT. rewrite Ho in RT. cbn [fst] in RT.
        assert (AL := tr_al _ _ _ _ _ TR k Hk). rewrite Ho in AL. cbn [fst snd] in AL.
        split; [exact TR|]. split; [clear - NX C; lia|]. split; [reflexivity|]. split; [clear - RT; lia|]. split.
        -- apply NEED; [|exact H1|exact H2]. rewrite N.mod_add by (clear - BP; lia). unfold algn in AL.
           apply N.mod_divide in AL; [|clear - BP; lia]. destruct AL as [q ->]. rewrite N.mul_assoc. apply N.mod_mul. clear - BP. lia.
        -- intros j Hj Oj. destruct (N.eq_dec j 0) as [->|J0].
           ++ rewrite Oj in RT. cbn [fst] in RT. clear - RT. lia.
           ++ destruct (tr_parent _ _ _ _ _ TR j) as (k2 & i2 & Q1 & Q2 & Q3 & Q4 & Q5); [clear - J0 Hj; lia|].
              rewrite Oj in Q3, Q4. cbn [fst snd] in Q3, Q4. rewrite Q3 in Q4.
              assert (AL2 := tr_al _ _ _ _ _ TR k2 Q1). rewrite Q3 in AL2.
              destruct (same_place _ _ _ _ _ BP AL AL2 Hi Q2 Q4) as [E1 ->].
              assert (k2 = k). { apply (tr_inj _ _ _ _ _ TR); try assumption. rewrite Ho, (surjective_pairing (own k2)), Q3, E1. reflexivity. }
              subst k2. rewrite D in Q5. symmetry in Q5. apply table_nz in Q5. exact Q5.
    + rewrite AC. subst h.
      destruct (tr_entry _ _ _ _ _ TR k i h' Hk Hi) as (k' & K0 & K1 & K2 & K3); [rewrite Ho; reflexivity|exact D|].
      rewrite Ho in K3. cbn [snd] in K3. rewrite K2.
      destruct (table_at A T k' HT) as [T1 _]; [pose proof (tr_next _ _ _ _ _ TR) as NX; clear - NX K1; lia|]. rewrite T1.
      apply (after_sub_ok h' sub n own st own st k k' b i E IH SUB TR Hk Ho HE2 (proj2 HE') HL H1 H2 CL); try assumption.
      apply post_refl; [exact TR|]. intro va. unfold hits. clear. lia.
Qed.

Lemma land_not64 : forall x h, x < 2 ^ 64 -> (h <= 4)%nat -> N.land x (not64 (block_mask h)) = x / block_size h * block_size h.
Proof.
  intros x h Hx Hh. unfold not64, block_mask, block_size. rewrite <- N.pred_sub, <- N.ones_equiv.
  rewrite <- N.shiftr_div_pow2, <- N.shiftl_mul_pow2, <- N.ldiff_ones_r.
  apply N.bits_inj. intro j. rewrite N.land_spec, !N.ldiff_spec.
  destruct (N.lt_ge_cases j 64) as [L|L].
  - rewrite (N.ones_spec_low 64 j L). reflexivity.
  - replace (N.testbit x j) with false; [reflexivity|].
    symmetry. apply (testbit_false_lt x 64); assumption.
Qed.

Lemma region_all : forall h, (h <= 4)%nat -> forall own st k b E, tree A T need own st -> k < x_next st -> own k = (h, b) ->
  0 < E <= 512 -> b + E * block_size h <= 2 ^ 52 ->
  b < mm_va mm + mm_size mm -> mm_va mm < b + E * block_size h ->
  (forall va, hits b (b + E * block_size h) va = true -> look A (x_mem st) h (taddr T k) va = None) ->
  result_ok own st k h b b (b + E * block_size h) (map_region A T mm h E b (taddr T k) st).
Proof.
  induction h as [h IH] using (well_founded_induction Wf_nat.lt_wf).
  intros Hh own st k b E TR Hk Ho HE HL H1 H2 CL.
  pose proof (bs_pos h) as BP. pose proof MM as MMo. destruct MM as [m1 m2 m3 m4 m5 m6].
  assert (AL := tr_al _ _ _ _ _ TR k Hk). rewrite Ho in AL. cbn [fst snd] in AL.
  set (i := (N.max b (mm_va mm) - b) / block_size h).
  assert (Ri : i * block_size h <= N.max b (mm_va mm) - b < i * block_size h + block_size h).
  { unfold i. pose proof (N.div_mod (N.max b (mm_va mm) - b) (block_size h)) as Q1. pose proof (N.mod_lt (N.max b (mm_va mm) - b) (block_size h)) as Q2.
    clear - BP Q1 Q2. set (q := (N.max b (mm_va mm) - b) / block_size h) in *. set (r := (N.max b (mm_va mm) - b) mod block_size h) in *.
    clearbody q r. nia. }
  assert (Hi : i < E).
  { clear - Ri H2 BP HE. clearbody i. set (B := block_size h) in *. clearbody B. nia. }
  assert (AL1 : b mod block_size h = 0).
  { clear - AL BP. unfold algn in AL. apply N.mod_divide in AL; [|lia]. destruct AL as [q ->]. rewrite N.mul_assoc. apply N.mod_mul. lia. }
  assert (AL2 : (b + i * block_size h) mod block_size h = 0) by (rewrite N.mod_add by (clear - BP; lia); exact AL1).
  assert (FS : find_start_va mm b h = b + i * block_size h).
  { unfold find_start_va. destruct (N.ltb_spec b (mm_va mm)) as [C|C].
    - rewrite land_not64 by (assumption || (clear - m4; lia)). apply div_block; [exact BP|exact AL2|clear - Ri C; clearbody i; lia].
    - assert (i = 0); [|clear - H; subst i; rewrite H; lia]. clear - C. unfold i. replace (N.max b (mm_va mm) - b) with 0 by lia. apply N.div_0_l.
      pose proof (bs_pos h). lia. }
  assert (IX : va_to_index b (b + i * block_size h) h = i).
  { unfold va_to_index. rewrite (wrap_over _ (i * block_size h)); [|clear; clearbody i; lia|clear - Ri m4; clearbody i; lia].
    rewrite N.shiftr_div_pow2. fold (block_size h). rewrite N.div_mul by (clear - BP; lia). apply N.mod_small. clear - Hi HE. clearbody i. lia. }
  assert (ME : map_region A T mm h E b (taddr T k) st =
    map_loop A T mm h (match h with O => fun _ _ _ => XPanic | S h => map_region A T mm h 512 end)
      (taddr T k) (N.to_nat (E - i)) i (b + i * block_size h) st).
  { destruct h; cbn [map_region]; cbv zeta; rewrite FS, IX; reflexivity. }
  rewrite ME.
  assert (SUB : sub_ok h (match h with O => fun _ _ _ => XPanic | S h => map_region A T mm h 512 end)).
  { destruct h as [|h]; [exact Logic.I|]. intros own' st' k' b' TR' Hk' Ho' HL' H1' H2' CL'.
    apply (IH h (Nat.lt_succ_diag_r h)); try assumption; [clear - Hh; lia|split; [reflexivity|apply N.le_refl]]. }
  assert (R := loop_all h _ (N.to_nat (E - i)) SUB own st k b i E TR Hk Ho ltac:(rewrite N2Nat.id; clear - Hi; clearbody i; lia) HE HL
     ltac:(clear - Ri H1 m3; clearbody i; lia) ltac:(clear - Ri; clearbody i; lia)
     ltac:(intros va V; apply CL; unfold hits in *; clear - V; clearbody i; destruct (in_region mm va); cbn [andb] in *; [lia|discriminate])).
  destruct (map_loop A T mm h _ (taddr T k) (N.to_nat (E - i)) i (b + i * block_size h) st) as [[st1 e]|]; [|exact R].
  cbn [result_ok] in *. destruct R as [[own1 P] R]. split; [|exact R]. exists own1.
  apply (post_weaken _ _ _ _ _ _ _ _ _ _ _ P). intros va Hv. unfold hits, in_region. clear - Ri Hv. clearbody i. lia.
Qed.

End Map.
