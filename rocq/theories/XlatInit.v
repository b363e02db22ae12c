(** xlat_ctx_cfg_init and xlat_ctx_init: the tables translate what the regions ask for. *)
From Coq Require Import NArith ZArith List Bool Lia ZifyBool ZifyN ZifyNat.
From Verif Require Import Bits Xlat SpecXlat XlatDesc XlatTree XlatMap.
Import ListNotations.
Local Open Scope N_scope.

(** The regions lie one after the other *)
Definition ordered (l : list mmap_region) : Prop := ForallOrdPairs (fun a b => mm_va a + mm_size a <= mm_va b) l.

(** A table of height [h] for the addresses from [v] on has something to map *)
Definition needed (l : list mmap_region) (h : nat) (v : N) : Prop :=
  v mod block_size (S h) = 0 /\ exists mm, In mm l /\ v < mm_va mm + mm_size mm /\ mm_va mm < v + block_size (S h).

Lemma taddr0 : forall T, taddr T 0 = t_tables T.
Proof. intro. unfold taddr. lia. Qed.

Section Regions.
Variables (A : xarch) (T : xtbls) (all : list mmap_region) (H : nat).
Hypothesis HT : tbls_ok T.
Hypothesis HH : (H <= 4)%nat.
Hypothesis ALL : forall mm, In mm all -> mm_ok mm /\ mm_va mm + mm_size mm <= table_entries H * block_size H.

Definition short : Prop :=
  exists own st h v, tree A T (needed all) own st /\ x_next st = t_num T /\ own 0 = (H, 0) /\ (h < H)%nat /\ needed all h v /\
    forall j, j < x_next st -> own j <> (h, v).
Definition why : Prop := (exists mm, In mm all /\ bad_type mm) \/ short.

Definition inv (done : list mmap_region) (own : N -> nat * N) (st : xst) : Prop :=
  tree A T (needed all) own st /\ own 0 = (H, 0) /\
  forall va, va < 512 * block_size H ->
    match find (fun r => in_region r va) done with
    | Some mm => mapped A mm va (look A (x_mem st) H (t_tables T) va)
    | None => look A (x_mem st) H (t_tables T) va = None
    end.

Lemma entries_le : 0 < table_entries H <= 512.
Proof. unfold table_entries. destruct (Nat.eqb H 4); lia. Qed.
Lemma entries_lim : table_entries H * block_size H <= 2 ^ 52.
Proof.
  clear - HH. destruct H as [|[|[|[|[|h]]]]]; try (apply N.leb_le; reflexivity). lia.
Qed.

Lemma find_app : forall (f : mmap_region -> bool) l l', find f (l ++ l') = match find f l with Some x => Some x | None => find f l' end.
Proof. intros f l l'. induction l as [|x l IH]; [reflexivity|]. cbn [app find]. destruct (f x); [reflexivity|exact IH]. Qed.

Lemma regions_all : forall l done own st, incl l all -> ordered (done ++ l) -> inv done own st ->
  match map_regions A T H l st with
  | XPanic => why
  | XOk (st', ok) => ok = true /\ (exists own', inv (done ++ l) own' st') /\
                     forall a, ~ (t_tables T <= a < t_tables T + 4096 * t_num T) -> x_mem st' a = x_mem st a
  end.
Proof.
  induction l as [|mm l IH]; intros done own st IN OD IV.
  - cbn [map_regions]. rewrite app_nil_r. split; [reflexivity|]. split; [exists own; exact IV|reflexivity].
  - cbn [map_regions]. destruct IV as (TR & O0 & LK).
    destruct (ALL mm) as [MM LE]; [apply IN; left; reflexivity|].
    pose proof entries_le as EL. pose proof entries_lim as ELM. destruct MM as [m1 m2 m3 m4 m5 m6] eqn:MME. clear MME.
    assert (EL2 : table_entries H * block_size H <= 512 * block_size H) by (apply N.mul_le_mono_r; apply EL).
    assert (FN : forall va, in_region mm va = true -> find (fun r => in_region r va) done = None).
    { intros va V. destruct (find (fun r => in_region r va) done) as [d|] eqn:F; [|reflexivity]. exfalso.
      apply find_some in F. destruct F as [F1 F2].
      assert (mm_va d + mm_size d <= mm_va mm).
      { clear - OD F1. induction done as [|x done IHd]; [destruct F1|]. inversion OD as [|? ? Q1 Q2]; subst. destruct F1 as [->|F1].
        - rewrite Forall_forall in Q1. apply Q1. apply in_or_app. right. left. reflexivity.
        - apply IHd; assumption. }
      unfold in_region in *. clear - H0 F2 V. lia. }
    assert (R := region_all A T (needed all) mm HT MM
      ltac:(intros h v V1 V2 V3; split; [exact V1|]; exists mm; split; [apply IN; left; reflexivity|split; assumption])
      H HH own st 0 0 (table_entries H) TR ltac:(pose proof (tr_next _ _ _ _ _ TR) as NX; clear - NX; lia) O0 EL).
    rewrite N.add_0_l, taddr0 in R. specialize (R ELM ltac:(clear - m3; lia) ltac:(clear - m3 LE; lia)).
    assert (CL : forall va, hits mm 0 (table_entries H * block_size H) va = true -> look A (x_mem st) H (t_tables T) va = None).
    { intros va V. assert (V1 : va < 512 * block_size H) by (unfold hits in V; clear - V EL2; lia).
      specialize (LK va V1). rewrite FN in LK; [exact LK|]. unfold hits in V. clear - V. destruct (in_region mm va); [reflexivity|discriminate]. }
    specialize (R CL).
    destruct (map_region A T mm H (table_entries H) 0 (t_tables T) st) as [[st1 e]|].
    + cbn [result_ok] in R. destruct R as [[own1 P] E].
      rewrite (wrap_over _ (mm_va mm + mm_size mm - 1)) by (clear - m3 m4; lia).
      replace (e =? mm_va mm + mm_size mm - 1) with true by (symmetry; apply N.eqb_eq; clear - E LE m3; lia).
      assert (IV1 : inv (done ++ [mm]) own1 st1).
      { split; [apply (po_tree _ _ _ _ _ _ _ _ _ _ _ _ _ P)|].
        pose proof (tr_next _ _ _ _ _ TR) as NX.
        split; [rewrite (po_own _ _ _ _ _ _ _ _ _ _ _ _ _ P); [exact O0|clear - NX; lia]|].
        intros va V. rewrite find_app. cbn [find]. specialize (LK va V).
        pose proof (po_map _ _ _ _ _ _ _ _ _ _ _ _ _ P va) as PM. pose proof (po_keep _ _ _ _ _ _ _ _ _ _ _ _ _ P va) as PK.
        rewrite taddr0 in PM, PK. specialize (PM ltac:(clear - V; lia)). specialize (PK ltac:(clear - V; lia)).
        destruct (in_region mm va) eqn:IR.
        - rewrite (FN va IR) in LK |- *. apply PM. unfold hits. rewrite IR. unfold in_region in IR. clear - IR LE. lia.
        - rewrite PK by (unfold hits; rewrite IR; reflexivity).
          destruct (find (fun r => in_region r va) done); exact LK. }
      specialize (IH (done ++ [mm]) own1 st1). rewrite <- app_assoc in IH. cbn [app] in IH.
      specialize (IH (fun x Hx => IN x (or_intror Hx)) OD IV1).
      destruct (map_regions A T H l st1) as [[st2 ok]|]; [|exact IH].
      destruct IH as (I1 & I2 & I3). split; [exact I1|]. split; [exact I2|].
      intros a Ha. rewrite I3 by exact Ha. apply (po_out _ _ _ _ _ _ _ _ _ _ _ _ _ P). exact Ha.
    + cbn [result_ok] in R. destruct R as [R|(o & s & h & v & R1 & R2 & R3 & R4 & R5)]; [left; exists mm; split; [apply IN; left; reflexivity|exact R]|].
      right. exists o, s, h, v. rewrite O0 in R3, R4. split; [exact R1|]. split; [exact R2|]. split; [exact R3|]. split; [exact R4|exact R5].
Qed.
End Regions.

(** ** The tables at first *)
Lemma clear_in : forall T mem k i, k < t_num T -> i < 512 -> clear_tables T mem (entry_addr (taddr T k) i) = 0.
Proof.
  intros T mem k i Hk Hi. unfold clear_tables, entry_addr, taddr.
  replace ((t_tables T <=? t_tables T + 4096 * k + 8 * i) && (t_tables T + 4096 * k + 8 * i <? t_tables T + 4096 * t_num T)) with true by lia.
  reflexivity.
Qed.

Lemma init_inv : forall A T all H mem, 0 < t_num T -> inv A T all H [] (fun _ => (H, 0)) (mkXst (clear_tables T mem) 1).
Proof.
  intros A T all H mem HN.
  assert (TR : tree A T (needed all) (fun _ => (H, 0)) (mkXst (clear_tables T mem) 1)).
  { split; cbn [x_next x_mem fst snd].
    - lia.
    - intros. apply N.mod_0_l. pose proof (bs_pos H). lia.
    - intros. lia.
    - intros k i h' Hk Hi _ E. rewrite clear_in in E by (assumption || lia). discriminate E.
    - intros. lia.
    - intros. lia.
    - intros k i Hk Hi. apply clear_in; [lia|exact Hi].
    - intros. lia. }
  split; [exact TR|]. split; [reflexivity|]. intros va _. cbn [find]. rewrite <- (taddr0 T).
  apply (leaf_zero A T (needed all) (fun _ => (H, 0)) _ 0 H 0); [exact TR|cbn [x_next]; lia|reflexivity|].
  intros i Hi. apply clear_in; [lia|exact Hi].
Qed.

(** ** When there are tables enough *)
Lemma NoDup_map_inj_in : forall (X Y : Type) (f : X -> Y) l, NoDup l -> (forall a b, In a l -> In b l -> f a = f b -> a = b) -> NoDup (map f l).
Proof.
  intros X Y f l ND. induction ND as [|x l NI ND IH]; intro INJ; [constructor|]. cbn [map]. constructor.
  - intro I. apply in_map_iff in I. destruct I as (y & E & Iy). assert (y = x) by (apply INJ; [right; exact Iy|left; reflexivity|exact E]).
    subst y. contradiction.
  - apply IH. intros a b Ia Ib. apply INJ; right; assumption.
Qed.

Lemma enough : forall A T all H L,
  (forall h v, (h < H)%nat -> needed all h v -> In (h, v) L) -> N.of_nat (length L) < t_num T -> ~ short A T all H.
Proof.
  intros A T all H L INL LEN (own & st & h & v & TR & NX & O0 & Hh & ND & NE).
  set (ks := map N.of_nat (seq 1 (N.to_nat (t_num T - 1)))).
  assert (IK : forall k, In k ks -> 0 < k < x_next st).
  { intros k I. unfold ks in I. apply in_map_iff in I. destruct I as (n & <- & I). apply in_seq in I. rewrite NX.
    pose proof (tr_next _ _ _ _ _ TR). lia. }
  assert (NDL : NoDup ((h, v) :: map own ks)).
  { constructor.
    - intro I. apply in_map_iff in I. destruct I as (k & E & I). apply (NE k); [apply IK in I; lia|exact E].
    - apply NoDup_map_inj_in.
      + apply NoDup_map_inj_in; [apply seq_NoDup|]. intros a b _ _ E. lia.
      + intros a b Ia Ib E. apply IK in Ia. apply IK in Ib. apply (tr_inj _ _ _ _ _ TR); [lia|lia|exact E]. }
  assert (INC : incl ((h, v) :: map own ks) L).
  { intros x [<-|I]; [apply INL; assumption|]. apply in_map_iff in I. destruct I as (k & <- & I). apply IK in I.
    rewrite (surjective_pairing (own k)). apply INL; [|apply (tr_need _ _ _ _ _ TR); exact I].
    destruct (tr_parent _ _ _ _ _ TR k I) as (p & i & P1 & _ & P2 & _).
    pose proof (tr_root _ _ _ _ _ TR p P1) as RT. rewrite P2, O0 in RT. cbn [fst] in RT. lia. }
  pose proof (NoDup_incl_length NDL INC) as LE. cbn [length] in LE. unfold ks in LE.
  rewrite !map_length, seq_length in LE. pose proof (tr_next _ _ _ _ _ TR). lia.
Qed.

(** ** From the tables to the walk of the MMU *)
Definition walk_end (lpa2 : bool) (va : N) (p : N * nat) : option (N * s1_perm) :=
  let '(d, h) := p in
  let r := if N.testbit d 10 then Some (desc_addr lpa2 d / span_of h * span_of h + va mod span_of h, perm_of_desc d) else None in
  if N.testbit d 0 then if N.testbit d 1 then (match h with O => r | _ => None end) else if block_allowed lpa2 h then r else None else None.

Lemma land3 : forall d, (N.land d DESC_MASK =? 3) = N.testbit d 0 && N.testbit d 1.
Proof.
  intro d. change DESC_MASK with (N.ones 2). rewrite N.land_ones. change (2 ^ 2) with 4.
  rewrite !N.testbit_eqb. change (2 ^ 0) with 1. change (2 ^ 1) with 2. rewrite N.div_1_r. lia.
Qed.

Lemma walk_leaf : forall A mem h table va, s1_walk (xa_lpa2 A) mem h table va = walk_end (xa_lpa2 A) va (leaf A mem h table va).
Proof.
  intros A mem h. induction h as [|h IH]; intros table va; cbn [s1_walk leaf].
  - unfold walk_end, entry_addr. rewrite span_bs. reflexivity.
  - rewrite span_bs, land3. unfold entry_addr. set (d := mem (table + 8 * (va / block_size (S h) mod 512))).
    destruct (N.testbit d 0) eqn:B0; [destruct (N.testbit d 1) eqn:B1|]; cbn [andb].
    + rewrite IH, desc_addr_get_oa. reflexivity.
    + unfold walk_end. rewrite B0, B1. reflexivity.
    + unfold walk_end. rewrite B0. reflexivity.
Qed.

Lemma walk_none : forall A mem h table va, look A mem h table va = None -> s1_walk (xa_lpa2 A) mem h table va = None.
Proof.
  intros A mem h table va L. rewrite walk_leaf. unfold look in L. destruct (leaf A mem h table va) as [d h']. cbn [fst] in L.
  destruct (N.eqb_spec d 0) as [->|]; [reflexivity|discriminate].
Qed.

Lemma allowed : forall A h, (0 < h <= max_block_height A)%nat -> block_allowed (xa_lpa2 A) h = true.
Proof. intros A h Hh. unfold max_block_height in Hh. destruct (xa_lpa2 A); destruct h as [|[|[|[|h]]]]; (reflexivity || lia). Qed.

Lemma block_pos : forall va h, va / block_size h * block_size h + va mod block_size h = va.
Proof. intros. rewrite N.mul_comm. symmetry. apply N.div_mod. pose proof (bs_pos h). lia. Qed.

Lemma walk_mapped : forall A mm mem h table va, mm_ok mm -> mm_pa mm + mm_size mm <= pa_limit A ->
  mapped A mm va (look A mem h table va) ->
  s1_walk (xa_lpa2 A) mem h table va =
    if mm_attr mm mod 16 =? 3 then None else Some (mm_pa mm + (va - mm_va mm), perm_of_attr (mm_attr mm)).
Proof.
  intros A mm mem h table va [m1 m2 m3 m4 m5 m6] PL (d & h' & L & Hh & V1 & V2 & D).
  rewrite walk_leaf. unfold look in L. destruct (N.eqb_spec (fst (leaf A mem h table va)) 0); [discriminate|]. injection L as L.
  rewrite L. change 3 with MT_TRANSIENT. rewrite <- mt_type_mod.
  destruct (MT_TYPE (mm_attr mm) =? MT_TRANSIENT) eqn:TT.
  - unfold xlat_desc in D. rewrite TT in D. injection D as <-. reflexivity.
  - pose proof (bs_pos h') as BP. pose proof (block_pos va h') as BV.
    set (s := va / block_size h' * block_size h') in *.
    destruct (xlat_desc_flags A _ _ _ _ D TT) as [PM _]. rewrite land_block_mask in PM.
    assert (P0 : (mm_pa mm + (s - mm_va mm)) mod 4096 = 0).
    { pose proof (bs_page h') as PG. clear - PM PG BP. apply N.mod_divide in PM; [|lia]. destruct PM as [q ->].
      apply N.mod_divide in PG; [|lia]. destruct PG as [r ->]. rewrite N.mul_assoc. apply N.mod_mul. lia. }
    destruct (leaf_decode A (mm_attr mm) _ h' d 0 D TT P0) as (G & B0 & B1 & B10 & PE & _).
    { clear - V1 V2 PL BP. clearbody s. lia. }
    { left. reflexivity. }
    rewrite N.lor_0_r in *. unfold walk_end. rewrite B0, B1, B10, PE, desc_addr_get_oa, G, span_bs.
    assert (Q : (mm_pa mm + (s - mm_va mm)) / block_size h' * block_size h' = mm_pa mm + (s - mm_va mm)).
    { clear - PM BP. apply N.mod_divide in PM; [|lia]. destruct PM as [q ->]. rewrite N.div_mul by lia. reflexivity. }
    rewrite Q. replace (mm_pa mm + (s - mm_va mm) + va mod block_size h') with (mm_pa mm + (va - mm_va mm)).
    2:{ set (r := va mod block_size h') in *. clear - BV V1. clearbody s r. lia. }
    destruct h' as [|h']; [reflexivity|]. cbn [Nat.eqb]. rewrite allowed by lia. reflexivity.
Qed.
