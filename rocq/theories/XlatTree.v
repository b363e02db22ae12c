(** The shape of the stage 1 tables: every table is reached through one entry, and a
    walk only reads tables that belong to the address. *)
From Coq Require Import NArith ZArith List Bool Lia ZifyBool ZifyN ZifyNat.
From Verif Require Import Bits Xlat SpecXlat XlatDesc.
Import ListNotations.
Local Open Scope N_scope.

Lemma bs_pos : forall h, 0 < block_size h.
Proof. intro. apply pow2_pos. Qed.
Lemma bs_S : forall h, block_size (S h) = 512 * block_size h.
Proof.
  intro. unfold block_size, addr_shift. change 512 with (2 ^ 9). rewrite <- N.pow_add_r. f_equal. lia.
Qed.
Lemma bs_0 : block_size 0 = 4096.
Proof. reflexivity. Qed.
Lemma bs_page : forall h, block_size h mod 4096 = 0.
Proof.
  intro. induction h; [reflexivity|]. rewrite bs_S. rewrite N.mul_mod, IHh by lia. rewrite N.mul_0_r. reflexivity.
Qed.
Lemma span_bs : forall h, span_of h = block_size h.
Proof. reflexivity. Qed.

(** Kept folded: arithmetic tactics are slow on remainders *)
Definition algn (b B : N) : Prop := b mod B = 0.

(** The entry of a table that an address selects *)
Lemma index_unique : forall b B va i, 0 < B -> algn b (512 * B) -> i < 512 ->
  b + i * B <= va < b + i * B + B -> va / B mod 512 = i.
Proof.
  intros b B va i HB Hb Hi Hv.
  unfold algn in Hb. apply N.mod_divide in Hb; [|clear Hb; lia]. destruct Hb as [q ->].
  replace va with (va - (q * (512 * B) + i * B) + (q * 512 + i) * B) by lia.
  rewrite N.div_add by lia. rewrite N.div_small by lia.
  rewrite N.add_0_l. rewrite N.add_comm, N.mod_add by lia. apply N.mod_small. exact Hi.
Qed.
Lemma index_exists : forall b B va, 0 < B -> algn b (512 * B) -> b <= va < b + 512 * B ->
  b + va / B mod 512 * B <= va < b + va / B mod 512 * B + B.
Proof.
  intros b B va HB Hb Hv.
  set (i := (va - b) / B).
  assert (Hi : i * B <= va - b < i * B + B).
  { unfold i. pose proof (N.div_mod (va - b) B). pose proof (N.mod_lt (va - b) B). clear - HB H H0.
    set (q := (va - b) / B) in *. set (r := (va - b) mod B) in *. clearbody q r. nia. }
  assert (i < 512) by (clear - Hi HB Hv; clearbody i; nia).
  rewrite (index_unique b B va i); try assumption; lia.
Qed.

Lemma same_place : forall b b' B i i', 0 < B -> algn b (512 * B) -> algn b' (512 * B) -> i < 512 -> i' < 512 ->
  b + i * B = b' + i' * B -> b = b' /\ i = i'.
Proof.
  intros b b' B i i' HB Hb Hb' Hi Hi' E.
  assert (R : b + i * B <= b + i * B < b + i * B + B) by (clear - HB; lia).
  assert (R' : b' + i' * B <= b + i * B < b' + i' * B + B) by (clear - HB E; lia).
  pose proof (index_unique b B _ i HB Hb Hi R) as I1.
  pose proof (index_unique b' B _ i' HB Hb' Hi' R') as I2.
  rewrite I1 in I2. subst i'. split; [clear - E; lia|reflexivity].
Qed.

(** The descriptor at which the walk ends, and its height *)
Fixpoint leaf (A : xarch) (mem : N -> N) (h : nat) (table va : N) : N * nat :=
  let d := mem (entry_addr table (va / block_size h mod 512)) in
  match h with
  | O => (d, O)
  | S h' => if N.land d DESC_MASK =? 3 then leaf A mem h' (get_oa A d) va else (d, h)
  end.
Definition look (A : xarch) (mem : N -> N) (h : nat) (table va : N) : option (N * nat) :=
  let p := leaf A mem h table va in if fst p =? 0 then None else Some p.

Definition taddr (T : xtbls) (k : N) : N := t_tables T + 4096 * k.
Definition tbls_ok (T : xtbls) : Prop := t_tables T mod 4096 = 0 /\ t_tables T + 4096 * t_num T <= 2 ^ 48.

Record tree (A : xarch) (T : xtbls) (need : nat -> N -> Prop) (own : N -> nat * N) (st : xst) : Prop := mkTree {
  tr_next : 0 < x_next st <= t_num T;
  tr_al : forall k, k < x_next st -> algn (snd (own k)) (512 * block_size (fst (own k)));
  tr_inj : forall k k', k < x_next st -> k' < x_next st -> own k = own k' -> k = k';
  tr_entry : forall k i h', k < x_next st -> i < 512 -> fst (own k) = S h' ->
    N.land (x_mem st (entry_addr (taddr T k) i)) DESC_MASK = 3 ->
    exists k', 0 < k' /\ k' < x_next st /\ x_mem st (entry_addr (taddr T k) i) = N.lor TABLE_DESC (taddr T k') /\
               own k' = (h', snd (own k) + i * block_size (S h'));
  tr_parent : forall j, 0 < j < x_next st -> exists k i, k < x_next st /\ i < 512 /\ fst (own k) = S (fst (own j)) /\
    snd (own j) = snd (own k) + i * block_size (fst (own k)) /\ x_mem st (entry_addr (taddr T k) i) = N.lor TABLE_DESC (taddr T j);
  tr_root : forall j, j < x_next st -> (fst (own j) <= fst (own 0%N))%nat;
  tr_zero : forall k i, x_next st <= k < t_num T -> i < 512 -> x_mem st (entry_addr (taddr T k) i) = 0;
  tr_need : forall k, 0 < k < x_next st -> need (fst (own k)) (snd (own k))
}.

Lemma entry_inj : forall T k k' i i', i < 512 -> i' < 512 ->
  entry_addr (taddr T k) i = entry_addr (taddr T k') i' -> k = k' /\ i = i'.
Proof. intros T k k' i i' Hi Hi' H. unfold entry_addr, taddr in H. lia. Qed.

Lemma taddr_ok : forall T k, tbls_ok T -> k < t_num T -> taddr T k mod 4096 = 0 /\ taddr T k < 2 ^ 48.
Proof.
  intros T k [Ha Hl] Hk. unfold taddr. split; [|lia].
  replace (4096 * k) with (k * 4096) by lia. rewrite N.mod_add by lia. exact Ha.
Qed.
Lemma table_at : forall A T k, tbls_ok T -> k < t_num T ->
  get_oa A (N.lor TABLE_DESC (taddr T k)) = taddr T k /\ N.land (N.lor TABLE_DESC (taddr T k)) DESC_MASK = 3.
Proof. intros A T k HT Hk. destruct (taddr_ok T k HT Hk). apply table_desc; assumption. Qed.

(** Walks of two memories that agree on all tables of an area end the same *)
Lemma leaf_frame : forall A T need own st mem' h k b va,
  tbls_ok T -> tree A T need own st -> k < x_next st -> own k = (h, b) -> b <= va < b + 512 * block_size h ->
  (forall j i, j < x_next st -> i < 512 -> (fst (own j) <= h)%nat -> b <= snd (own j) < b + 512 * block_size h ->
     mem' (entry_addr (taddr T j) i) = x_mem st (entry_addr (taddr T j) i)) ->
  leaf A mem' h (taddr T k) va = leaf A (x_mem st) h (taddr T k) va.
Proof.
  intros A T need own st mem' h. induction h as [|h IH]; intros k b va HT TR Hk Ho Hv F.
  - cbn [leaf]. rewrite F; try assumption; rewrite ?Ho; cbn [fst snd]; try lia. reflexivity.
  - assert (AL := tr_al _ _ _ _ _ TR k Hk). rewrite Ho in AL. cbn [fst snd] in AL.
    assert (Hi : va / block_size (S h) mod 512 < 512) by (apply N.mod_lt; lia).
    assert (HI := index_exists b (block_size (S h)) va (bs_pos _) AL Hv).
    cbn [leaf]. rewrite F; try assumption; rewrite ?Ho; cbn [fst snd]; try lia.
    set (i := va / block_size (S h) mod 512) in *.
    destruct (N.eqb_spec (N.land (x_mem st (entry_addr (taddr T k) i)) DESC_MASK) 3) as [E|]; [|reflexivity].
    destruct (tr_entry _ _ _ _ _ TR k i h Hk Hi) as (k' & K0 & K1 & K2 & K3); [rewrite Ho; reflexivity|exact E|].
    rewrite Ho in K3. cbn [snd] in K3.
    rewrite K2. destruct (table_at A T k' HT) as [-> _]; [pose proof (tr_next _ _ _ _ _ TR); lia|].
    apply IH with (b := b + i * block_size (S h)); try assumption.
    + rewrite <- bs_S. exact HI.
    + intros j i' Hj Hi' Hf Hs. apply F; try assumption; [lia|].
      rewrite <- bs_S in Hs. clear - Hs Hi. generalize dependent i. intros. set (B := block_size (S h)) in *. clearbody B. nia.
Qed.

(** One step of a walk *)
Lemma look_entry : forall A T need own st h b k i va, tbls_ok T -> tree A T need own st -> k < x_next st -> own k = (h, b) ->
  i < 512 -> b + i * block_size h <= va < b + i * block_size h + block_size h ->
  leaf A (x_mem st) h (taddr T k) va =
  (let d := x_mem st (entry_addr (taddr T k) i) in
   match h with O => (d, O) | S h' => if N.land d DESC_MASK =? 3 then leaf A (x_mem st) h' (get_oa A d) va else (d, h) end).
Proof.
  intros A T need own st h b k i va HT TR Hk Ho Hi Hv.
  assert (AL := tr_al _ _ _ _ _ TR k Hk). rewrite Ho in AL. cbn [fst snd] in AL.
  destruct h; cbn [leaf]; rewrite (index_unique b _ va i (bs_pos _) AL Hi Hv); reflexivity.
Qed.

Lemma table_nz : forall t, N.lor TABLE_DESC t <> 0.
Proof. intros t H. apply N.lor_eq_0_iff in H. destruct H as [H _]. discriminate H. Qed.
