(** Mapping and unmapping pages of a context: effect on the translation. *)
From Coq Require Import NArith ZArith List Bool Lia ZifyBool ZifyN ZifyNat.
From Verif Require Import Bits Xlat SpecXlat XlatDesc XlatTree XlatMap XlatInit XlatCfg XlatDyn.
Import ListNotations.
Local Open Scope N_scope.

Record ready (A : xarch) (mm : list mmap_region) (cfg : xcfg) (T : xtbls) (mu : xmmu) (m0 : N -> N)
    (n : N) (base : N) (H : nat) (need : nat -> N -> Prop) (own : N -> nat * N) (nx : N) (trans : N -> bool) : Prop := mkReady {
  rd_ht : tbls_ok T;
  rd_root : own 0 = (H, 0);
  rd_h : (H <= 4)%nat;
  rd_good : good A T need H own nx trans m0;
  rd_base : c_base_va cfg = base;
  rd_size : c_va_size cfg = 2 ^ n;
  rd_height : c_height cfg = H;
  rd_lim : 2 ^ n <= table_entries H * block_size H;
  rd_end : base + 2 ^ n <= 2 ^ 64;
  rd_al : base mod block_size H = 0;
  rd_nal : 2 ^ n mod block_size H = 0;
  rd_pa : 2 ^ xa_width A <= pa_limit A;
  rd_tr : forall m va, va < 2 ^ 64 -> s1_translate (xa_lpa2 A) mu m va =
    if (base <=? va) && (va <? base + 2 ^ n) then s1_walk (xa_lpa2 A) m H (t_tables T) (va - base) else None;
  rd_trans : forall va, transient_at mm va = (base <=? va) && trans (va - base);
  rd_trlim : forall va, trans va = true -> va < 2 ^ n;
  rd_n : 16 <= n
}.

Lemma bs_ge : forall n, 16 <= n <= 52 -> exists q, 0 < q /\ 2 ^ n = q * block_size (base_height (2 ^ n)).
Proof.
  intros n Hn. rewrite <- base_height_pow by exact Hn.
  set (h := N.to_nat ((n - 13) / 9)). assert (L : addr_shift h <= n) by (unfold addr_shift, h; lia).
  exists (2 ^ (n - addr_shift h)). split; [apply pow2_pos|]. unfold block_size. rewrite <- N.pow_add_r. f_equal. lia.
Qed.

Lemma region_base_al : forall region n, 16 <= n <= 52 -> region_base region (2 ^ n) mod block_size (base_height (2 ^ n)) = 0.
Proof.
  intros region n Hn. destruct region; cbn [region_base]; [apply N.mod_0_l; pose proof (bs_pos (base_height (2 ^ n))); lia|].
  destruct (bs_ge n Hn) as (q & Hq & E).
  assert (P : 2 ^ 64 = 2 ^ (64 - n) * 2 ^ n) by (rewrite <- N.pow_add_r; f_equal; lia).
  replace (2 ^ 64 - 2 ^ n) with ((2 ^ (64 - n) - 1) * q * block_size (base_height (2 ^ n))).
  - apply N.mod_mul. pose proof (bs_pos (base_height (2 ^ n))). lia.
  - rewrite P, <- N.mul_assoc, <- E, N.mul_sub_distr_r, N.mul_1_l. reflexivity.
Qed.

Lemma ctx_ready : forall A inited region mm n mm' cfg T inited2 mem st mu,
  Forall region64 mm -> t_tables T + 4096 * t_num T <= 2 ^ 48 ->
  xlat_ctx_cfg_init A inited region mm (2 ^ n) = (mm', inr cfg) ->
  xlat_ctx_init A inited2 cfg T mem = XOk (inr st) ->
  setup_mmu_cfg A cfg T = Some mu ->
  exists H need own nx trans, ready A mm cfg T mu (x_mem st) n (region_base region (2 ^ n)) H need own nx trans.
Proof.
  intros A inited region mm n mm' cfg T inited2 mem st mu R TL E1 E2 E3.
  destruct (mmu_facts _ _ _ _ E3) as (W & PL & M1 & M2 & M3).
  destruct (cfg_init_facts _ _ _ _ _ _ _ W R E1) as (F1 & F2 & F3 & F4 & F5 & F6 & F7 & F8 & F9 & F10).
  pose proof (ctx_init_facts _ _ _ _ _ _ _ T inited2 mem W R E1 TL) as CI. rewrite E2 in CI.
  destruct CI as (HT & (own & TR & O0 & LK) & _).
  rewrite F1, ctz_pow in M2. rewrite F5 in M1, M3.
  assert (Hn : 16 <= n <= 52).
  { split; apply (N.pow_le_mono_r_iff 2); (reflexivity || apply F7). }
  assert (W64 : 64 - mu_txsz mu = n) by (rewrite M2; clear - Hn; lia).
  exists (base_height (2 ^ n)), (needed mm'), own, (x_next st), (transient_at mm').
  assert (TR2 : tree A T (needed mm') own (mkXst (x_mem st) (x_next st))) by (destruct st; exact TR).
  assert (LIM : 2 ^ n <= table_entries (base_height (2 ^ n)) * block_size (base_height (2 ^ n))) by (apply base_height_fits; apply F7).
  split; try assumption.
  - apply base_height_le.
  - split.
    + exact TR2.
    + intros k i Hk Hi B.
      assert (Ho : own k = (fst (own k), snd (own k))) by apply surjective_pairing.
      set (h := fst (own k)) in *. set (b := snd (own k)) in *.
      assert (NT : h = 0%nat \/ N.land (x_mem st (entry_addr (taddr T k) i)) DESC_MASK <> 3).
      { destruct h as [|h0] eqn:Eh; [left; reflexivity|right]. intro E.
        destruct (tr_entry _ _ _ _ _ TR2 k i h0 Hk Hi) as (k' & K0 & K1 & K2 & K3); [exact Eh|exact E|].
        cbn [x_mem] in K2. rewrite K2, N.lor_spec in B. pose proof (tr_next _ _ _ _ _ TR2) as NX. cbn [x_next] in NX, K1.
        destruct (taddr_ok T k' HT) as [_ TK]; [clear - NX K1; lia|].
        rewrite (testbit_false_lt (taddr T k') 48 55) in B by (assumption || discriminate). discriminate B. }
      pose proof (bs_pos h) as BP.
      destruct (leaf_at A T (needed mm') (base_height (2 ^ n)) own (x_next st) HT O0 (x_mem st) k h b i (b + i * block_size h) TR2 Hk Ho Hi) as [V L];
        [clear - BP; lia|exact NT|].
      specialize (LK _ V). unfold look in LK. rewrite L in LK. cbn [fst] in LK.
      assert (NZ : x_mem st (entry_addr (taddr T k) i) <> 0) by (intro Z; rewrite Z in B; discriminate B).
      apply N.eqb_neq in NZ. rewrite NZ in LK.
      destruct (find (fun r => in_region r (b + i * block_size h)) mm') as [r|] eqn:FD; [|discriminate].
      apply find_some in FD. rewrite Forall_forall in F9. destruct (F9 r (proj1 FD)) as (G1 & G2 & G3).
      destruct LK as (d & h' & LE & Hh & V1 & V2 & D). injection LE as <- <-. split; [exact Hh|].
      destruct (MT_TYPE (mm_attr r) =? MT_TRANSIENT) eqn:TT.
      * left. unfold xlat_desc in D. rewrite TT in D. injection D as D. symmetry. exact D.
      * exfalso. set (s := (b + i * block_size h) / block_size h * block_size h) in *.
        destruct (xlat_desc_flags A _ _ _ _ D TT) as [PM _]. rewrite land_block_mask in PM.
        assert (P0 : (mm_pa r + (s - mm_va r)) mod 4096 = 0).
        { pose proof (bs_page h) as PG. clear - PM PG BP. apply N.mod_divide in PM; [|lia]. destruct PM as [q ->].
          apply N.mod_divide in PG; [|lia]. destruct PG as [r0 ->]. rewrite N.mul_assoc. apply N.mod_mul. lia. }
        destruct (leaf_decode A (mm_attr r) _ h _ 0 D TT P0) as (_ & _ & _ & _ & _ & B55).
        { clear - V1 V2 PL G3 BP. clearbody s. lia. }
        { left. reflexivity. }
        rewrite N.lor_0_r, B in B55. discriminate B55.
    + intros va Hva. specialize (LK va Hva). unfold transient_at. unfold look in LK.
      destruct (find (fun r => in_region r va) mm') as [r|] eqn:FD.
      * apply find_some in FD. rewrite Forall_forall in F9. destruct (F9 r (proj1 FD)) as (G1 & G2 & G3).
        destruct LK as (d & h' & LE & Hh & V1 & V2 & D).
        destruct (fst (leaf A (x_mem st) (base_height (2 ^ n)) (t_tables T) va) =? 0); [discriminate|]. injection LE as LE. rewrite LE. cbn [fst].
        change 3 with MT_TRANSIENT. rewrite <- mt_type_mod.
        destruct (MT_TYPE (mm_attr r) =? MT_TRANSIENT) eqn:TT.
        -- unfold xlat_desc in D. rewrite TT in D. injection D as <-. reflexivity.
        -- pose proof (bs_pos h') as BP. set (s := va / block_size h' * block_size h') in *.
           destruct (xlat_desc_flags A _ _ _ _ D TT) as [PM _]. rewrite land_block_mask in PM.
           assert (P0 : (mm_pa r + (s - mm_va r)) mod 4096 = 0).
           { pose proof (bs_page h') as PG. clear - PM PG BP. apply N.mod_divide in PM; [|lia]. destruct PM as [q ->].
             apply N.mod_divide in PG; [|lia]. destruct PG as [r0 ->]. rewrite N.mul_assoc. apply N.mod_mul. lia. }
           destruct (leaf_decode A (mm_attr r) _ h' _ 0 D TT P0) as (_ & _ & _ & _ & _ & B55).
           { clear - V1 V2 PL G3 BP. clearbody s. lia. }
           { left. reflexivity. }
           rewrite N.lor_0_r in B55. rewrite B55. reflexivity.
      * destruct (N.eqb_spec (fst (leaf A (x_mem st) (base_height (2 ^ n)) (t_tables T) va)) 0) as [Z|]; [|discriminate]. rewrite Z. reflexivity.
  - destruct region; cbn [region_base]; clear - F7; lia.
  - apply region_base_al. exact Hn.
  - destruct (bs_ge n Hn) as (q & _ & E). rewrite E at 1. apply N.mod_mul. pose proof (bs_pos (base_height (2 ^ n))) as BP. clear - BP. lia.
  - intros m va Hva. unfold s1_translate. rewrite W64, base_height_pow by exact Hn.
    rewrite (ttbr_base (xa_lpa2 A) (t_tables T) (mu_ttbr mu)).
    2:{ apply HT. }
    2:{ destruct HT as [_ HT2]. pose proof (tr_next _ _ _ _ _ TR) as NX. clear - HT2 NX. lia. }
    2:{ rewrite M3. destruct region; [right|left]; reflexivity. }
    rewrite M1. destruct region; cbn [region_base].
    + rewrite N.add_0_l, N.sub_0_r. replace (0 <=? va) with true by (symmetry; apply N.leb_le; apply N.le_0_l). cbn [andb].
      destruct (N.ltb_spec va (2 ^ n)) as [L|L]; [|reflexivity]. rewrite N.mod_small by exact L. reflexivity.
    + destruct (N.leb_spec (2 ^ 64 - 2 ^ n) va) as [L|L]; [|reflexivity]. cbn [andb].
      replace (va <? 2 ^ 64 - 2 ^ n + 2 ^ n) with true by (clear - Hva L F7; lia).
      assert (MD : va mod 2 ^ n = va - (2 ^ 64 - 2 ^ n)).
      { assert (P : 2 ^ 64 = 2 ^ (64 - n) * 2 ^ n) by (rewrite <- N.pow_add_r; f_equal; clear - Hn; lia).
        assert (P2 : 2 ^ 64 - 2 ^ n = (2 ^ (64 - n) - 1) * 2 ^ n) by (rewrite P, N.mul_sub_distr_r, N.mul_1_l; reflexivity).
        replace va with (va - (2 ^ 64 - 2 ^ n) + (2 ^ (64 - n) - 1) * 2 ^ n) at 1 by (rewrite <- P2; clear - L; lia).
        rewrite N.mod_add by (pose proof (pow2_pos n) as PN; clear - PN; lia). apply N.mod_small. clear - L Hva F7. lia. }
      rewrite MD. reflexivity.
  - intros va. unfold transient_at. destruct (N.leb_spec (region_base region (2 ^ n)) va) as [L|L]; cbn [andb].
    + clear - F8 L. induction F8 as [|r r' l l' (S1 & S2 & S3 & S4 & S5) F IH]; [reflexivity|]. cbn [find].
      assert (IR : in_region r va = in_region r' (va - region_base region (2 ^ n))) by (unfold in_region; rewrite S3; lia).
      rewrite <- IR. destruct (in_region r va); [rewrite S4; reflexivity|exact IH].
    + clear - F8 L. induction F8 as [|r r' l l' (S1 & S2 & S3 & S4 & S5) F IH]; [reflexivity|]. cbn [find].
      replace (in_region r va) with false by (unfold in_region; lia). exact IH.
  - intros va Hva. unfold transient_at in Hva. destruct (find (fun r => in_region r va) mm') as [r|] eqn:FD; [|discriminate].
    apply find_some in FD. destruct FD as [FI FR]. rewrite Forall_forall in F9. destruct (F9 r FI) as (G1 & G2 & G3).
    unfold in_region in FR. clear - G2 FR. lia.
  - apply Hn.
Qed.


Lemma algn_div : forall x B, 0 < B -> algn x (512 * B) -> algn x B.
Proof.
  intros x B HB Hx. unfold algn in *. apply N.mod_divide in Hx; [|clear - HB; lia]. destruct Hx as [z ->].
  rewrite N.mul_assoc. apply N.mod_mul. clear - HB. lia.
Qed.
Lemma bs_divides : forall d h, algn (block_size (h + d)) (block_size h).
Proof.
  intros. unfold algn, block_size. replace (addr_shift (h + d)) with (9 * N.of_nat d + addr_shift h) by (unfold addr_shift; lia).
  rewrite N.pow_add_r. apply N.mod_mul. apply N.pow_nonzero. discriminate.
Qed.
Lemma algn_trans : forall x B C, 0 < B -> 0 < C -> algn x C -> algn C B -> algn x B.
Proof.
  intros x B C HB HC X Y. unfold algn in *. apply N.mod_divide in X; [|clear - HC; lia]. apply N.mod_divide in Y; [|clear - HB; lia].
  destruct X as [a ->]. destruct Y as [b ->]. rewrite N.mul_assoc. apply N.mod_mul. clear - HB. lia.
Qed.

Section Steps.
Variables (A : xarch) (mm : list mmap_region) (cfg : xcfg) (T : xtbls) (mu : xmmu) (m0 : N -> N)
  (n : N) (base : N) (H : nat) (need : nat -> N -> Prop) (own : N -> nat * N) (nx : N) (trans : N -> bool).
Hypothesis R : ready A mm cfg T mu m0 n base H need own nx trans.
Notation good := (good A T need H own nx trans).
Notation tr := (s1_translate (xa_lpa2 A) mu).

Lemma root_size : 2 ^ n <= 512 * block_size H.
Proof.
  pose proof (rd_lim _ _ _ _ _ _ _ _ _ _ _ _ _ R) as L. pose proof (entries_le H (rd_h _ _ _ _ _ _ _ _ _ _ _ _ _ R)) as EL.
  pose proof (N.mul_le_mono_r _ _ (block_size H) (proj2 EL)) as ML. clear - L ML. lia.
Qed.

Lemma llt_ok : forall m va l, good m -> va < 2 ^ 64 -> xlat_get_llt_from_va A cfg T m va = inr l ->
  exists k h b, l = mkLlt (taddr T k) (base + b) h /\ k < nx /\ own k = (h, b) /\ base <= va /\ va - base < 2 ^ n /\
    b <= va - base < b + 512 * block_size h /\
    (h = 0%nat \/ N.land (m (entry_addr (taddr T k) ((va - base) / block_size h mod 512))) DESC_MASK <> 3).
Proof.
  intros m va l G Hva E. unfold xlat_get_llt_from_va in E.
  rewrite (rd_base _ _ _ _ _ _ _ _ _ _ _ _ _ R), (rd_size _ _ _ _ _ _ _ _ _ _ _ _ _ R), (rd_height _ _ _ _ _ _ _ _ _ _ _ _ _ R) in E.
  destruct (N.ltb_spec va base) as [|L]; [discriminate|].
  change 4095 with (block_mask 0) in E. rewrite land_not64 in E by (try apply Nat.le_0_l; clear - Hva; lia).
  rewrite bs_0 in E. set (off := (va - base) / 4096 * 4096) in *.
  pose proof (N.div_mod (va - base) 4096 ltac:(discriminate)) as DM. pose proof (N.mod_lt (va - base) 4096 ltac:(discriminate)) as ML.
  assert (OF : off <= va - base < off + 4096) by (unfold off; clear - DM ML; set (q := (va - base) / 4096) in *; set (r := (va - base) mod 4096) in *; clearbody q r; lia).
  assert (OA : algn off 4096) by (unfold algn, off; apply N.mod_mul; discriminate).
  clearbody off. clear DM ML.
  destruct (N.leb_spec (2 ^ n) off) as [|LO]; [discriminate|]. injection E as <-.
  pose proof root_size as RS. pose proof (rd_good _ _ _ _ _ _ _ _ _ _ _ _ _ R) as G0.
  destruct (last_ok A T need own nx (rd_ht _ _ _ _ _ _ _ _ _ _ _ _ _ R) m base (gd_tree _ _ _ _ _ _ _ _ G) H 0 0 off) as (k & h & b & E & Hk & Ho & Hb & NT).
  { pose proof (tr_next _ _ _ _ _ (gd_tree _ _ _ _ _ _ _ _ G)) as NX. cbn [x_next] in NX. clear - NX. lia. }
  { apply (rd_root _ _ _ _ _ _ _ _ _ _ _ _ _ R). }
  { clear - LO RS. lia. }
  { clear - OF Hva L. lia. }
  rewrite taddr0, N.add_0_r in E. exists k, h, b. split; [exact E|]. split; [exact Hk|]. split; [exact Ho|]. split; [exact L|].
  assert (PG : forall x, algn x 4096 -> off < x -> va - base < x).
  { clear - OF OA. intros x X Y. unfold algn in *. lia. }
  split; [|split; [split|]].
  - apply PG; [|exact LO]. pose proof (rd_n _ _ _ _ _ _ _ _ _ _ _ _ _ R) as HN. unfold algn.
    replace n with (n - 12 + 12) by (clear - HN; lia). rewrite N.pow_add_r. apply N.mod_mul. discriminate.
  - clear - OF Hb. lia.
  - apply PG; [|clear - Hb; lia]. pose proof (tr_al _ _ _ _ _ (gd_tree _ _ _ _ _ _ _ _ G) k Hk) as AL. rewrite Ho in AL. cbn [fst snd] in AL.
    assert (AB : algn b 4096).
    { apply (algn_trans b 4096 (512 * block_size h)); [reflexivity|pose proof (bs_pos h) as BP; clear - BP; lia|exact AL|]. rewrite <- bs_S. apply bs_page. }
    unfold algn in *. rewrite N.add_mod by discriminate. rewrite AB. rewrite <- bs_S, bs_page. reflexivity.
  - replace ((va - base) / block_size h) with (off / block_size h); [exact NT|].
    pose proof (bs_pos h) as BP. pose proof (N.div_mod off (block_size h) ltac:(clear - BP; lia)) as DM.
    pose proof (N.mod_lt off (block_size h) ltac:(clear - BP; lia)) as ML. set (q := off / block_size h) in *.
    apply (N.div_unique _ _ q (va - base - block_size h * q)).
    + assert (Q : va - base < block_size h * (q + 1)).
      { apply PG; [|clear - DM ML; set (r := off mod block_size h) in *; clearbody r q; nia].
        unfold algn. rewrite N.mul_comm. rewrite N.mul_mod by discriminate. rewrite bs_page, N.mul_0_r. reflexivity. }
      rewrite N.mul_add_distr_l, N.mul_1_r in Q. clear - Q BP. lia.
    + clear - DM OF. set (r := off mod block_size h) in *. clearbody r q. lia.
Qed.

(** What a successful look-up of the entry means *)
Lemma place : forall m l k h b va p, good m -> l = mkLlt (taddr T k) (base + b) h -> k < nx -> own k = (h, b) -> near l va ->
  xlat_get_tte_ptr l va = Some p -> N.testbit (m p) 55 = true ->
  exists i, i < 512 /\ p = entry_addr (taddr T k) i /\ base <= va /\ b + i * block_size h <= va - base < b + i * block_size h + block_size h /\
    transient_at mm va = true /\ (h <= max_block_height A)%nat /\ (h <= 4)%nat /\
    forall va', va' / span_of h = va / span_of h <-> base <= va' /\ b + i * block_size h <= va' - base < b + i * block_size h + block_size h.
Proof.
  intros m l k h b va p G -> Hk Ho NR E B.
  destruct (tte_ok A T need H own nx (rd_root _ _ _ _ _ _ _ _ _ _ _ _ _ R) (rd_h _ _ _ _ _ _ _ _ _ _ _ _ _ R) m base k h b va p (gd_tree _ _ _ _ _ _ _ _ G) Hk Ho NR E) as (i & Hi & -> & L & Q).
  exists i. split; [exact Hi|]. split; [reflexivity|]. split; [clear - L; lia|]. split; [exact Q|].
  pose proof (no_table _ _ _ _ _ _ _ m k h b i G Hk Ho Hi B) as NT.
  destruct (leaf_at A T need H own nx (rd_ht _ _ _ _ _ _ _ _ _ _ _ _ _ R) (rd_root _ _ _ _ _ _ _ _ _ _ _ _ _ R) m k h b i (va - base) (gd_tree _ _ _ _ _ _ _ _ G) Hk Ho Hi Q NT) as [P1 P2].
  assert (TV : trans (va - base) = true) by (rewrite <- (gd_trans _ _ _ _ _ _ _ _ G _ P1), P2; exact B).
  split; [rewrite (rd_trans _ _ _ _ _ _ _ _ _ _ _ _ _ R), TV; clear - L; lia|].
  split; [pose proof (gd_desc _ _ _ _ _ _ _ _ G k i Hk Hi B) as [HB _]; rewrite Ho in HB; exact HB|].
  pose proof (height_le A T need H own nx (rd_root _ _ _ _ _ _ _ _ _ _ _ _ _ R) m k h b (gd_tree _ _ _ _ _ _ _ _ G) Hk Ho) as HL.
  split; [pose proof (rd_h _ _ _ _ _ _ _ _ _ _ _ _ _ R) as RH; clear - HL RH; lia|].
  rewrite span_bs. pose proof (bs_pos h) as BP.
  pose proof (tr_al _ _ _ _ _ (gd_tree _ _ _ _ _ _ _ _ G) k Hk) as AL. rewrite Ho in AL. cbn [fst snd] in AL. apply algn_div in AL; [|exact BP].
  assert (AB : algn base (block_size h)).
  { apply (algn_trans base _ (block_size H)); [exact BP|apply bs_pos|apply (rd_al _ _ _ _ _ _ _ _ _ _ _ _ _ R)|].
    replace H with (h + (H - h))%nat by (clear - HL; lia). apply bs_divides. }
  set (B0 := block_size h) in *. clearbody B0. unfold algn in *.
  apply N.mod_divide in AL; [|clear - BP; lia]. destruct AL as [x ->]. apply N.mod_divide in AB; [|clear - BP; lia]. destruct AB as [y EB].
  assert (DV : forall w, (x + i + y) * B0 <= w < (x + i + y) * B0 + B0 -> w / B0 = x + i + y).
  { intros w Hw. symmetry. apply (N.div_unique w B0 _ (w - (x + i + y) * B0)); clear - Hw; lia. }
  assert (VA : va / B0 = x + i + y) by (apply DV; clear - Q L EB; lia).
  intro va'. rewrite VA. split.
  - intro W. pose proof (N.div_mod va' B0 ltac:(clear - BP; lia)) as DM. pose proof (N.mod_lt va' B0 ltac:(clear - BP; lia)) as ML. rewrite W in DM.
    clear - DM ML EB BP. set (r := va' mod B0) in *. clearbody r. split; [|split]; nia.
  - intros [W1 W2]. apply DV. clear - W1 W2 EB. lia.
Qed.

Lemma tr_at : forall m k h b i va, good m -> k < nx -> own k = (h, b) -> i < 512 -> va < 2 ^ 64 -> base <= va ->
  b + i * block_size h <= va - base < b + i * block_size h + block_size h ->
  N.testbit (m (entry_addr (taddr T k) i)) 55 = true ->
  transient_at mm va = true /\ tr m va = walk_end (xa_lpa2 A) (va - base) (m (entry_addr (taddr T k) i), h).
Proof.
  intros m k h b i va G Hk Ho Hi Hva Hb Q B.
  pose proof (no_table _ _ _ _ _ _ _ m k h b i G Hk Ho Hi B) as NT.
  destruct (leaf_at A T need H own nx (rd_ht _ _ _ _ _ _ _ _ _ _ _ _ _ R) (rd_root _ _ _ _ _ _ _ _ _ _ _ _ _ R) m k h b i (va - base) (gd_tree _ _ _ _ _ _ _ _ G) Hk Ho Hi Q NT) as [P1 P2].
  assert (TV : trans (va - base) = true) by (rewrite <- (gd_trans _ _ _ _ _ _ _ _ G _ P1), P2; exact B).
  pose proof (rd_trlim _ _ _ _ _ _ _ _ _ _ _ _ _ R _ TV) as TL.
  split; [rewrite (rd_trans _ _ _ _ _ _ _ _ _ _ _ _ _ R), TV; clear - Hb; lia|].
  rewrite (rd_tr _ _ _ _ _ _ _ _ _ _ _ _ _ R) by exact Hva.
  replace ((base <=? va) && (va <? base + 2 ^ n)) with true by (clear - TL Hb; lia). rewrite walk_leaf, P2. reflexivity.
Qed.

Lemma tr_else : forall m m' lo hi va, (forall w, w < 512 * block_size H -> ~ (lo <= w < hi) ->
    leaf A m' H (t_tables T) w = leaf A m H (t_tables T) w) ->
  va < 2 ^ 64 -> ~ (base <= va /\ lo <= va - base < hi) -> tr m' va = tr m va.
Proof.
  intros m m' lo hi va F Hva NI. rewrite !(rd_tr _ _ _ _ _ _ _ _ _ _ _ _ _ R) by exact Hva.
  destruct ((base <=? va) && (va <? base + 2 ^ n)) eqn:C; [|reflexivity]. rewrite !walk_leaf, F; [reflexivity| |].
  - pose proof root_size as RS. clear - C RS. lia.
  - clear - C NI. lia.
Qed.

Lemma mod_base : forall k h b i va m, good m -> k < nx -> own k = (h, b) -> base <= va -> (h <= H)%nat -> i < 512 -> (va - base) mod block_size h = va mod block_size h.
Proof.
  intros k h b i va m G Hk Ho L HL Hi. pose proof (bs_pos h) as BP.
  assert (AB : algn base (block_size h)).
  { apply (algn_trans base _ (block_size H)); [exact BP|apply bs_pos|apply (rd_al _ _ _ _ _ _ _ _ _ _ _ _ _ R)|].
    replace H with (h + (H - h))%nat by (clear - HL; lia). apply bs_divides. }
  unfold algn in AB. apply N.mod_divide in AB; [|clear - BP; lia]. destruct AB as [y EB].
  replace va with (va - base + y * block_size h) at 2 by (rewrite <- EB; clear - L; lia). rewrite N.mod_add by (clear - BP; lia). reflexivity.
Qed.

Lemma map_all : forall ml va0 l va pa attrs m, good ml -> va0 < 2 ^ 64 -> xlat_get_llt_from_va A cfg T ml va0 = inr l ->
  good m -> near l va ->
  match xlat_map_page A l va pa attrs m with
  | XPanic => attrs mod 16 <> 0 /\ attrs mod 16 <> 2 /\ attrs mod 16 <> 3
  | XOk (m', Some e) => m' = m /\ e = X_EFAULT
  | XOk (m', None) => good m' /\ transient_at mm va = true /\ pa < 2 ^ xa_width A /\
      forall va', va' < 2 ^ 64 ->
        if va' / span_of (l_height l) =? va / span_of (l_height l)
        then transient_at mm va' = true /\ tr m va' = None /\
             tr m' va' = if attrs mod 16 =? 3 then None
                         else Some (pa / span_of (l_height l) * span_of (l_height l) + va' mod span_of (l_height l), perm_of_attr attrs)
        else tr m' va' = tr m va'
  end.
Proof.
  intros ml va0 l va pa attrs m Gl H0 EL G NR. destruct (llt_ok ml va0 l Gl H0 EL) as (k & h & b & El & Hk & Ho & _).
  unfold xlat_map_page. destruct (xlat_get_tte_ptr l va) as [p|] eqn:EP; [|split; reflexivity].
  destruct (N.eqb_spec (m p) TRANSIENT_DESC) as [TD|]; cbn [negb]; [|split; reflexivity].
  destruct (N.ltb_spec (max_pa A) pa) as [|LP]; [split; reflexivity|].
  assert (B55 : N.testbit (m p) 55 = true) by (rewrite TD; reflexivity).
  destruct (place m l k h b va p G El Hk Ho NR EP B55) as (i & Hi & -> & Lb & Q & TV & HB & H4 & IFF).
  rewrite El. cbn [l_height].
  assert (PA : pa < 2 ^ xa_width A).
  { unfold max_pa in LP. pose proof (pow2_pos (xa_width A)) as PP. clear - LP PP. lia. }
  assert (PL : pa < pa_limit A) by (pose proof (rd_pa _ _ _ _ _ _ _ _ _ _ _ _ _ R) as RP; clear - PA RP; lia).
  assert (P64 : pa < 2 ^ 64).
  { apply (N.lt_le_trans _ (pa_limit A)); [exact PL|]. unfold pa_limit. destruct (xa_lpa2 A); apply pow2_le; discriminate. }
  rewrite land_not64 by assumption. set (pb := pa / block_size h * block_size h).
  pose proof (bs_pos h) as BP.
  assert (PB : pb <= pa) by (unfold pb; rewrite N.mul_comm; apply N.mul_div_le; clear - BP; lia).
  assert (PBA : N.land pb (block_mask h) = 0) by (rewrite land_block_mask; apply N.mod_mul; clear - BP; lia).
  destruct (xlat_desc A attrs pb h) as [d|] eqn:ED.
  2:{ unfold xlat_desc in ED. rewrite PBA in ED. cbn [N.eqb negb] in ED. rewrite mt_type_mod in ED.
      destruct (N.eqb_spec (attrs mod 16) MT_TRANSIENT) as [|N3]; [discriminate|].
      destruct (N.eqb_spec (attrs mod 16) MT_DEVICE) as [|N0]; [discriminate|].
      destruct (N.eqb_spec (attrs mod 16) MT_MEMORY) as [|N2]; cbn [negb] in ED; [discriminate|].
      split; [exact N0|]. split; [exact N2|exact N3]. }
  set (v := N.lor d TRANSIENT_DESC).
  assert (V : N.testbit v 55 = true /\ (v = TRANSIENT_DESC \/ (N.testbit v 0 = true /\ N.testbit v 10 = true /\ N.testbit v 1 = Nat.eqb h 0)) /\
              forall w, walk_end (xa_lpa2 A) w (v, h) = if attrs mod 16 =? 3 then None else Some (pb + w mod block_size h, perm_of_attr attrs)).
  { change 3 with MT_TRANSIENT. rewrite <- mt_type_mod. destruct (MT_TYPE attrs =? MT_TRANSIENT) eqn:TT.
    - unfold xlat_desc in ED. rewrite TT in ED. injection ED as <-. unfold v. rewrite N.lor_diag.
      split; [reflexivity|]. split; [left; reflexivity|]. intro w. reflexivity.
    - destruct (leaf_decode A attrs pb h d TRANSIENT_DESC ED TT) as (L1 & L2 & L3 & L4 & L5 & L6).
      { unfold pb. rewrite N.mul_mod by discriminate. rewrite bs_page, N.mul_0_r. reflexivity. }
      { clear - PB PL. lia. }
      { right. reflexivity. }
      fold v in L1, L2, L3, L4, L5, L6. split; [exact L6|]. split; [right; split; [exact L2|split; [exact L4|exact L3]]|].
      intro w. unfold walk_end. rewrite L2, L3, L4, span_bs, desc_addr_get_oa, L1, L5.
      assert (PQ : pb / block_size h * block_size h = pb).
      { unfold pb. rewrite N.div_mul by (clear - BP; lia). reflexivity. }
      rewrite PQ. destruct h as [|h]; cbn [Nat.eqb]; [reflexivity|]. rewrite allowed by (clear - HB; lia). reflexivity. }
  destruct V as (V55 & V & WE).
  destruct (swap A T need H own nx (rd_ht _ _ _ _ _ _ _ _ _ _ _ _ _ R) (rd_root _ _ _ _ _ _ _ _ _ _ _ _ _ R) trans m k h b i v G Hk Ho Hi B55 V55 V) as (G' & SW & OT).
  split; [exact G'|]. split; [exact TV|]. split; [exact PA|]. intros va' Hva'.
  destruct (N.eqb_spec (va' / span_of h) (va / span_of h)) as [SB|SB].
  - apply IFF in SB. destruct SB as [W1 W2].
    destruct (tr_at m k h b i va' G Hk Ho Hi Hva' W1 W2 B55) as [T1 T2]. split; [exact T1|]. split; [rewrite T2, TD; reflexivity|].
    destruct (tr_at _ k h b i va' G' Hk Ho Hi Hva' W1 W2) as [_ T3].
    { unfold set_word. rewrite N.eqb_refl. exact V55. }
    rewrite T3. unfold set_word. rewrite N.eqb_refl, WE. change (span_of h) with (block_size h).
    rewrite (mod_base k h b i va' m G Hk Ho W1); [reflexivity| |exact Hi].
    exact (height_le A T need H own nx (rd_root _ _ _ _ _ _ _ _ _ _ _ _ _ R) m k h b (gd_tree _ _ _ _ _ _ _ _ G) Hk Ho).
  - apply (tr_else m _ (b + i * block_size h) (b + i * block_size h + block_size h)); [exact OT|exact Hva'|].
    intro W. apply SB. apply IFF. exact W.
Qed.

Lemma transient_mask : forall d, (N.land d (N.lor TRANSIENT_DESC VALID_DESC) =? N.lor TRANSIENT_DESC VALID_DESC) = N.testbit d 55 && N.testbit d 0.
Proof.
  intro d. destruct (N.testbit d 55 && N.testbit d 0) eqn:E.
  - apply andb_prop in E. destruct E as [E1 E2]. apply N.eqb_eq. apply N.bits_inj. intro i. rewrite N.land_spec.
    destruct (N.testbit (N.lor TRANSIENT_DESC VALID_DESC) i) eqn:B; [|apply andb_false_r].
    unfold TRANSIENT_DESC, VALID_DESC in B. rewrite N.lor_spec in B.
    assert (I : i = 55 \/ i = 0).
    { apply orb_prop in B. destruct B as [B|B].
      - left. revert B. rewrite N.pow2_bits_eqb. intro B. apply N.eqb_eq in B. symmetry. exact B.
      - right. change 1 with (2 ^ 0) in B. rewrite N.pow2_bits_eqb in B. apply N.eqb_eq in B. symmetry. exact B. }
    destruct I as [-> | ->]; [rewrite E1|rewrite E2]; reflexivity.
  - apply N.eqb_neq. intro W.
    assert (W55 := f_equal (fun z => N.testbit z 55) W). assert (W0 := f_equal (fun z => N.testbit z 0) W). cbv beta in W55, W0.
    rewrite N.land_spec in W55, W0. change (N.testbit (N.lor TRANSIENT_DESC VALID_DESC) 55) with true in W55.
    change (N.testbit (N.lor TRANSIENT_DESC VALID_DESC) 0) with true in W0. rewrite andb_true_r in W55, W0. rewrite W55, W0 in E. discriminate E.
Qed.

(** An entry with bit 55 translates unless it is the empty one *)
Lemma present : forall m k h b i w, good m -> k < nx -> own k = (h, b) -> i < 512 -> N.testbit (m (entry_addr (taddr T k) i)) 55 = true ->
  walk_end (xa_lpa2 A) w (m (entry_addr (taddr T k) i), h) = None <-> m (entry_addr (taddr T k) i) = TRANSIENT_DESC.
Proof.
  intros m k h b i w G Hk Ho Hi B. destruct (gd_desc _ _ _ _ _ _ _ _ G k i Hk Hi B) as [HB [E|(B0 & B10 & B1)]].
  - rewrite E. split; reflexivity.
  - rewrite Ho in HB, B1. cbn [fst] in HB, B1. unfold walk_end. rewrite B0, B1, B10. split; intro E.
    + destruct h as [|h]; cbn [Nat.eqb] in E; [discriminate|]. rewrite allowed in E by (clear - HB; lia). discriminate.
    + rewrite E in B0. discriminate B0.
Qed.

Lemma unmap_all : forall ml va0 l va m, good ml -> va0 < 2 ^ 64 -> xlat_get_llt_from_va A cfg T ml va0 = inr l ->
  good m -> near l va ->
  match xlat_unmap_page l va m with
  | (m', inl e) => m' = m /\ e = X_EFAULT
  | (m', inr t) => good m' /\ t = va / 4096 mod 2 ^ 44 /\ transient_at mm va = true /\
      forall va', va' < 2 ^ 64 ->
        if va' / span_of (l_height l) =? va / span_of (l_height l)
        then transient_at mm va' = true /\ tr m va' <> None /\ tr m' va' = None
        else tr m' va' = tr m va'
  end.
Proof.
  intros ml va0 l va m Gl H0 EL G NR. destruct (llt_ok ml va0 l Gl H0 EL) as (k & h & b & El & Hk & Ho & _).
  unfold xlat_unmap_page. destruct (xlat_get_tte_ptr l va) as [p|] eqn:EP; [|split; reflexivity].
  rewrite transient_mask. destruct (N.testbit (m p) 55) eqn:B55; [|split; reflexivity].
  destruct (N.testbit (m p) 0) eqn:B0; cbn [andb negb]; [|split; reflexivity].
  destruct (place m l k h b va p G El Hk Ho NR EP B55) as (i & Hi & -> & Lb & Q & TV & HB & H4 & IFF).
  rewrite El. cbn [l_height].
  destruct (swap A T need H own nx (rd_ht _ _ _ _ _ _ _ _ _ _ _ _ _ R) (rd_root _ _ _ _ _ _ _ _ _ _ _ _ _ R) trans m k h b i TRANSIENT_DESC G Hk Ho Hi B55 eq_refl (or_introl eq_refl)) as (G' & SW & OT).
  split; [exact G'|]. split; [rewrite N.shiftr_div_pow2, N.land_ones; reflexivity|]. split; [exact TV|]. intros va' Hva'.
  destruct (N.eqb_spec (va' / span_of h) (va / span_of h)) as [SB|SB].
  - apply IFF in SB. destruct SB as [W1 W2].
    destruct (tr_at m k h b i va' G Hk Ho Hi Hva' W1 W2 B55) as [T1 T2]. split; [exact T1|]. split.
    + rewrite T2. intro E. apply (present m k h b i _ G Hk Ho Hi B55) in E. rewrite E in B0. discriminate B0.
    + destruct (tr_at _ k h b i va' G' Hk Ho Hi Hva' W1 W2) as [_ T3].
      { unfold set_word. rewrite N.eqb_refl. reflexivity. }
      rewrite T3. unfold set_word. rewrite N.eqb_refl. reflexivity.
  - apply (tr_else m _ (b + i * block_size h) (b + i * block_size h + block_size h)); [exact OT|exact Hva'|].
    intro W. apply SB. apply IFF. exact W.
Qed.

(** The table of a transient address has an entry for it *)
Lemma own_entry : forall m va l, good m -> va < 2 ^ 64 -> xlat_get_llt_from_va A cfg T m va = inr l -> transient_at mm va = true ->
  near l va /\ exists p, xlat_get_tte_ptr l va = Some p /\ N.testbit (m p) 55 = true /\ (tr m va = None <-> m p = TRANSIENT_DESC) /\
    (l_height l <= 4)%nat /\ (m p = TRANSIENT_DESC \/ N.testbit (m p) 0 = true).
Proof.
  intros m va l G Hva EL TV. destruct (llt_ok m va l G Hva EL) as (k & h & b & El & Hk & Ho & Lb & LN & Q & NT).
  pose proof (bs_pos h) as BP. pose proof (tr_al _ _ _ _ _ (gd_tree _ _ _ _ _ _ _ _ G) k Hk) as AL. rewrite Ho in AL. cbn [fst snd] in AL.
  pose proof (index_exists b (block_size h) (va - base) BP AL Q) as IX. set (i := (va - base) / block_size h mod 512) in *.
  assert (Hi : i < 512) by (apply N.mod_lt; discriminate). clearbody i.
  pose proof (height_le A T need H own nx (rd_root _ _ _ _ _ _ _ _ _ _ _ _ _ R) m k h b (gd_tree _ _ _ _ _ _ _ _ G) Hk Ho) as HL.
  pose proof (rd_h _ _ _ _ _ _ _ _ _ _ _ _ _ R) as RH.
  pose proof (entries_le h ltac:(clear - HL RH; lia)) as TE.
  assert (NR : near l va).
  { rewrite El. unfold near. cbn [l_base_va l_height]. change (span_of h) with (block_size h). clear - Q Lb BP. set (B := block_size h) in *. clearbody B. lia. }
  split; [exact NR|].
  assert (TB : va - base < b + table_entries h * block_size h).
  { destruct (Nat.eq_dec h H) as [EH|NH].
    - assert (K0 : b = 0).
      { destruct (N.eq_dec k 0) as [->|K0].
        - rewrite (rd_root _ _ _ _ _ _ _ _ _ _ _ _ _ R) in Ho. injection Ho as _ <-. reflexivity.
        - exfalso. destruct (tr_parent _ _ _ _ _ (gd_tree _ _ _ _ _ _ _ _ G) k) as (k2 & i2 & Q1 & Q2 & Q3 & _); [cbn [x_next]; clear - K0 Hk; lia|].
          pose proof (tr_root _ _ _ _ _ (gd_tree _ _ _ _ _ _ _ _ G) k2 Q1) as RT. rewrite (rd_root _ _ _ _ _ _ _ _ _ _ _ _ _ R), Q3, Ho in RT. cbn [fst] in RT. clear - RT EH. lia. }
      pose proof (rd_lim _ _ _ _ _ _ _ _ _ _ _ _ _ R) as RL. rewrite EH, K0. clear - LN RL. lia.
    - assert (E512 : table_entries h = 512) by (unfold table_entries; destruct h as [|[|[|[|h]]]]; (reflexivity || (exfalso; clear - HL NH RH; lia))).
      rewrite E512. apply Q. }
  destruct (tte_some T own base k h b va Ho) as [p EP]; [clear - TB Q Lb; lia|exact (proj2 TE)|].
  exists p. rewrite El. split; [exact EP|]. rewrite <- El in EP.
  rewrite El in NR, EP.
  destruct (tte_ok A T need H own nx (rd_root _ _ _ _ _ _ _ _ _ _ _ _ _ R) RH m base k h b va p (gd_tree _ _ _ _ _ _ _ _ G) Hk Ho NR EP) as (i2 & Hi2 & Ep & L2 & Q2).
  assert (EI : i2 = i).
  { rewrite <- (index_unique b (block_size h) (va - base) i BP AL Hi IX). symmetry. apply (index_unique b (block_size h) (va - base) i2 BP AL Hi2 Q2). }
  subst i2. subst p.
  destruct (leaf_at A T need H own nx (rd_ht _ _ _ _ _ _ _ _ _ _ _ _ _ R) (rd_root _ _ _ _ _ _ _ _ _ _ _ _ _ R) m k h b i (va - base) (gd_tree _ _ _ _ _ _ _ _ G) Hk Ho Hi IX NT) as [P1 P2].
  assert (B55 : N.testbit (m (entry_addr (taddr T k) i)) 55 = true).
  { rewrite (rd_trans _ _ _ _ _ _ _ _ _ _ _ _ _ R) in TV. apply andb_prop in TV. rewrite <- (gd_trans _ _ _ _ _ _ _ _ G _ P1), P2 in TV. apply TV. }
  split; [exact B55|]. destruct (tr_at m k h b i va G Hk Ho Hi Hva Lb IX B55) as [_ TA].
  split; [rewrite TA; apply (present m k h b i _ G Hk Ho Hi B55)|]. cbn [l_height]. split; [clear - HL RH; lia|].
  destruct (gd_desc _ _ _ _ _ _ _ _ G k i Hk Hi B55) as [_ [E|(E & _)]]; [left|right]; exact E.
Qed.

Lemma map_succeeds : forall m va l pa attrs, good m -> va < 2 ^ 64 -> xlat_get_llt_from_va A cfg T m va = inr l ->
  transient_at mm va = true -> tr m va = None -> pa < 2 ^ xa_width A -> attrs mod 16 = 0 \/ attrs mod 16 = 2 ->
  exists m', xlat_map_page A l va pa attrs m = XOk (m', None).
Proof.
  intros m va l pa attrs G Hva EL TV TN PA TY.
  destruct (own_entry m va l G Hva EL TV) as (NR & p & EP & B55 & TD & H4 & _). apply TD in TN.
  pose proof (map_all m va l va pa attrs m G Hva EL G NR) as MA.
  destruct (xlat_map_page A l va pa attrs m) as [[m' [e|]]|] eqn:E.
  - exfalso. unfold xlat_map_page in E. rewrite EP, TN in E. rewrite N.eqb_refl in E. cbn [negb] in E.
    replace (max_pa A <? pa) with false in E by (unfold max_pa; clear - PA; lia).
    destruct (xlat_desc _ _ _ _); discriminate E.
  - exists m'. reflexivity.
  - exfalso. destruct MA as (M0 & M2 & _). destruct TY; contradiction.
Qed.

Lemma unmap_succeeds : forall m va l, good m -> va < 2 ^ 64 -> xlat_get_llt_from_va A cfg T m va = inr l ->
  transient_at mm va = true -> tr m va <> None ->
  exists m', xlat_unmap_page l va m = (m', inr (va / 4096 mod 2 ^ 44)).
Proof.
  intros m va l G Hva EL TV TN.
  destruct (own_entry m va l G Hva EL TV) as (NR & p & EP & B55 & TD & H4 & B0).
  unfold xlat_unmap_page. rewrite EP, transient_mask, B55.
  destruct B0 as [B0|B0]; [exfalso; apply TN; apply TD; exact B0|]. rewrite B0. cbn [andb negb].
  rewrite N.shiftr_div_pow2, N.land_ones. eexists. reflexivity.
Qed.

Lemma dyn_good : forall m, xdyn A cfg T m0 m -> good m.
Proof.
  intros m X. induction X as [|ml va0 l va pa attrs m m' r X1 I1 H0 EL X2 I2 NR E|ml va0 l va m m' r X1 I1 H0 EL X2 I2 NR E].
  - apply (rd_good _ _ _ _ _ _ _ _ _ _ _ _ _ R).
  - pose proof (map_all ml va0 l va pa attrs m I1 H0 EL I2 NR) as MA. rewrite E in MA. destruct r; [destruct MA as [-> _]; exact I2|apply MA].
  - pose proof (unmap_all ml va0 l va m I1 H0 EL I2 NR) as MA. rewrite E in MA. destruct r; [destruct MA as [-> _]; exact I2|apply MA].
Qed.

(** Addresses that are not mapped on demand keep their translation *)
Lemma dyn_static : forall m, xdyn A cfg T m0 m -> forall va, va < 2 ^ 64 -> transient_at mm va = false -> tr m va = tr m0 va.
Proof.
  intros m X. induction X as [|ml va0 l va pa attrs m m' r X1 I1 H0 EL X2 I2 NR E|ml va0 l va m m' r X1 I1 H0 EL X2 I2 NR E]; intros w Hw TW.
  - reflexivity.
  - pose proof (map_all ml va0 l va pa attrs m (dyn_good _ X1) H0 EL (dyn_good _ X2) NR) as MA. rewrite E in MA. destruct r; [destruct MA as [-> _]; apply I2; assumption|].
    destruct MA as (_ & _ & _ & MA). specialize (MA w Hw). destruct (_ =? _) in MA.
    + exfalso. destruct MA as (MA & _). rewrite TW in MA. discriminate MA.
    + rewrite MA. apply I2; assumption.
  - pose proof (unmap_all ml va0 l va m (dyn_good _ X1) H0 EL (dyn_good _ X2) NR) as MA. rewrite E in MA. destruct r; [destruct MA as [-> _]; apply I2; assumption|].
    destruct MA as (_ & _ & _ & MA). specialize (MA w Hw). destruct (_ =? _) in MA.
    + exfalso. destruct MA as (MA & _). rewrite TW in MA. discriminate MA.
    + rewrite MA. apply I2; assumption.
Qed.
End Steps.

Section Final.
Variables (A : xarch) (inited : bool) (region : va_region) (mm : list mmap_region) (n : N) (mm' : list mmap_region) (cfg : xcfg) (T : xtbls)
  (inited2 : bool) (mem : N -> N) (st : xst) (mu : xmmu).
Hypothesis R64 : Forall region64 mm.
Hypothesis TL : t_tables T + 4096 * t_num T <= 2 ^ 48.
Hypothesis E1 : xlat_ctx_cfg_init A inited region mm (2 ^ n) = (mm', inr cfg).
Hypothesis E2 : xlat_ctx_init A inited2 cfg T mem = XOk (inr st).
Hypothesis E3 : setup_mmu_cfg A cfg T = Some mu.
Notation tr := (s1_translate (xa_lpa2 A) mu).
Notation dyn := (xdyn A cfg T (x_mem st)).

Lemma map_final : forall ml va0 l va pa attrs m, dyn ml -> va0 < 2 ^ 64 -> xlat_get_llt_from_va A cfg T ml va0 = inr l ->
  dyn m -> near l va ->
  match xlat_map_page A l va pa attrs m with
  | XPanic => attrs mod 16 <> 0 /\ attrs mod 16 <> 2 /\ attrs mod 16 <> 3
  | XOk (m', Some e) => m' = m /\ e = X_EFAULT
  | XOk (m', None) => transient_at mm va = true /\ pa < 2 ^ xa_width A /\
      forall va', va' < 2 ^ 64 ->
        if va' / span_of (l_height l) =? va / span_of (l_height l)
        then transient_at mm va' = true /\ tr m va' = None /\
             tr m' va' = if attrs mod 16 =? 3 then None
                         else Some (pa / span_of (l_height l) * span_of (l_height l) + va' mod span_of (l_height l), perm_of_attr attrs)
        else tr m' va' = tr m va'
  end.
Proof.
  intros ml va0 l va pa attrs m X1 H0 EL X2 NR.
  destruct (ctx_ready _ _ _ _ _ _ _ _ _ _ _ _ R64 TL E1 E2 E3) as (H & need & own & nx & trans & R).
  pose proof (map_all _ _ _ _ _ _ _ _ _ _ _ _ _ R ml va0 l va pa attrs m (dyn_good _ _ _ _ _ _ _ _ _ _ _ _ _ R _ X1) H0 EL (dyn_good _ _ _ _ _ _ _ _ _ _ _ _ _ R _ X2) NR) as MA.
  destruct (xlat_map_page A l va pa attrs m) as [[m' [e|]]|]; [exact MA|apply MA|exact MA].
Qed.

Lemma unmap_final : forall ml va0 l va m, dyn ml -> va0 < 2 ^ 64 -> xlat_get_llt_from_va A cfg T ml va0 = inr l ->
  dyn m -> near l va ->
  match xlat_unmap_page l va m with
  | (m', inl e) => m' = m /\ e = X_EFAULT
  | (m', inr t) => t = va / 4096 mod 2 ^ 44 /\ transient_at mm va = true /\
      forall va', va' < 2 ^ 64 ->
        if va' / span_of (l_height l) =? va / span_of (l_height l)
        then transient_at mm va' = true /\ tr m va' <> None /\ tr m' va' = None
        else tr m' va' = tr m va'
  end.
Proof.
  intros ml va0 l va m X1 H0 EL X2 NR.
  destruct (ctx_ready _ _ _ _ _ _ _ _ _ _ _ _ R64 TL E1 E2 E3) as (H & need & own & nx & trans & R).
  pose proof (unmap_all _ _ _ _ _ _ _ _ _ _ _ _ _ R ml va0 l va m (dyn_good _ _ _ _ _ _ _ _ _ _ _ _ _ R _ X1) H0 EL (dyn_good _ _ _ _ _ _ _ _ _ _ _ _ _ R _ X2) NR) as MA.
  destruct (xlat_unmap_page l va m) as [m' [e|t]]; [exact MA|apply MA].
Qed.

Lemma succeeds_final : forall m va l, dyn m -> va < 2 ^ 64 -> xlat_get_llt_from_va A cfg T m va = inr l -> transient_at mm va = true ->
  near l va /\
  (tr m va = None -> forall pa attrs, pa < 2 ^ xa_width A -> attrs mod 16 = 0 \/ attrs mod 16 = 2 ->
     exists m', xlat_map_page A l va pa attrs m = XOk (m', None)) /\
  (tr m va <> None -> exists m', xlat_unmap_page l va m = (m', inr (va / 4096 mod 2 ^ 44))).
Proof.
  intros m va l X Hva EL TV.
  destruct (ctx_ready _ _ _ _ _ _ _ _ _ _ _ _ R64 TL E1 E2 E3) as (H & need & own & nx & trans & R).
  pose proof (dyn_good _ _ _ _ _ _ _ _ _ _ _ _ _ R _ X) as G.
  split; [exact (proj1 (own_entry _ _ _ _ _ _ _ _ _ _ _ _ _ R m va l G Hva EL TV))|]. split.
  - intros TN pa attrs. apply (map_succeeds _ _ _ _ _ _ _ _ _ _ _ _ _ R m va l pa attrs G Hva EL TV TN).
  - intros TN. exact (unmap_succeeds _ _ _ _ _ _ _ _ _ _ _ _ _ R m va l G Hva EL TV TN).
Qed.

Lemma entry_final : forall m va l, dyn m -> va < 2 ^ 64 -> xlat_get_llt_from_va A cfg T m va = inr l -> transient_at mm va = true ->
  exists p, xlat_get_tte_ptr l va = Some p /\ (tr m va = None <-> m p = TRANSIENT_DESC).
Proof.
  intros m va l X Hva EL TV.
  destruct (ctx_ready _ _ _ _ _ _ _ _ _ _ _ _ R64 TL E1 E2 E3) as (H & need & own & nx & trans & R).
  destruct (own_entry _ _ _ _ _ _ _ _ _ _ _ _ _ R m va l (dyn_good _ _ _ _ _ _ _ _ _ _ _ _ _ R _ X) Hva EL TV) as (_ & p & EP & _ & TD & _).
  exists p. split; [exact EP|exact TD].
Qed.

Lemma static_final : forall m va, dyn m -> va < 2 ^ 64 -> transient_at mm va = false -> tr m va = s1_expect mm va.
Proof.
  intros m va X Hva TV.
  destruct (ctx_ready _ _ _ _ _ _ _ _ _ _ _ _ R64 TL E1 E2 E3) as (H & need & own & nx & trans & R).
  rewrite (dyn_static _ _ _ _ _ _ _ _ _ _ _ _ _ R m X va Hva TV).
  exact (translate_all _ _ _ _ _ _ _ _ _ _ _ _ _ R64 TL E1 E2 E3 Hva).
Qed.

(** Every address of the context has a last-level table *)
Lemma llt_final : forall m va, va < 2 ^ 64 -> transient_at mm va = true -> exists l, xlat_get_llt_from_va A cfg T m va = inr l.
Proof.
  intros m va Hva TV.
  destruct (ctx_ready _ _ _ _ _ _ _ _ _ _ _ _ R64 TL E1 E2 E3) as (H & need & own & nx & trans & R).
  rewrite (rd_trans _ _ _ _ _ _ _ _ _ _ _ _ _ R) in TV. apply andb_prop in TV. destruct TV as [TB TV].
  apply (rd_trlim _ _ _ _ _ _ _ _ _ _ _ _ _ R) in TV. unfold xlat_get_llt_from_va.
  rewrite (rd_base _ _ _ _ _ _ _ _ _ _ _ _ _ R), (rd_size _ _ _ _ _ _ _ _ _ _ _ _ _ R).
  set (base := region_base region (2 ^ n)) in *. clearbody base.
  destruct (N.ltb_spec va base) as [L|L]; [clear - L TB; lia|].
  assert (Q : N.land (va - base) (not64 4095) <= va - base).
  { change 4095 with (block_mask 0). rewrite land_not64 by (try apply Nat.le_0_l; clear - Hva; lia). rewrite N.mul_comm. apply N.mul_div_le. discriminate. }
  destruct (N.leb_spec (2 ^ n) (N.land (va - base) (not64 4095))) as [C|C]; [|eexists; reflexivity].
  exfalso. set (x := N.land (va - base) (not64 4095)) in *. clearbody x. clear - C Q TV. lia.
Qed.

Lemma both_succeed : forall m va, dyn m -> va < 2 ^ 64 -> transient_at mm va = true ->
  exists l, xlat_get_llt_from_va A cfg T m va = inr l /\ near l va /\
  (tr m va = None -> forall pa attrs, pa < 2 ^ xa_width A -> attrs mod 16 = 0 \/ attrs mod 16 = 2 ->
     exists m', xlat_map_page A l va pa attrs m = XOk (m', None)) /\
  (tr m va <> None -> exists m', xlat_unmap_page l va m = (m', inr (va / 4096 mod 2 ^ 44))).
Proof.
  intros m va X Hva TV. destruct (llt_final m va Hva TV) as [l EL]. exists l. split; [exact EL|].
  exact (succeeds_final m va l X Hva EL TV).
Qed.
End Final.
