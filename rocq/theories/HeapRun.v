(** What calloc and free do to the blocks, as a whole *)
From Coq Require Import NArith ZArith List Bool Lia ZifyBool ZifyN.
From Verif Require Import Heap SpecHeap HeapList HeapFacts HeapOps HeapFree.
Import ListNotations.
Local Open Scope N_scope.
Ltac Zify.zify_post_hook ::= Z.div_mod_to_equations.

Definition same_ctx (h h' : hctx) : Prop := hc_buf h' = hc_buf h /\ hc_len h' = hc_len h /\ hc_first h' = hc_first h /\ hc_verify h' = hc_verify h.
Lemma same_ctx_refl : forall h, same_ctx h h.
Proof. repeat split. Qed.
Lemma with_same : forall h h' v, with_free h h' v -> same_ctx h h'.
Proof. intros h h' v (H1 & H2 & H3 & H4 & _). repeat split; assumption. Qed.
Lemma same_trans : forall a b c, same_ctx a b -> same_ctx b c -> same_ctx a c.
Proof. intros a b c (H1 & H2 & H3 & H4) (K1 & K2 & K3 & K4). repeat split; congruence. Qed.

(** ** No two free blocks side by side *)
Lemma coal_cons : forall b Y, coal (b :: Y) <-> (bal b = true \/ hd true (map bal Y) = true) /\ coal Y.
Proof. intros b [|y Y]; cbn; intuition. Qed.
Lemma coal_app : forall X Y, coal (X ++ Y) <-> coal X /\ coal Y /\ (last (map bal X) true = true \/ hd true (map bal Y) = true).
Proof.
  induction X as [|x X IH]; intro Y; [cbn; intuition|]. cbn [app]. rewrite !coal_cons, IH. destruct X as [|y X].
  - cbn. intuition.
  - change (last (map bal (x :: y :: X)) true) with (last (map bal (y :: X)) true). cbn [app map hd]. intuition.
Qed.
Lemma coal_take : forall B1 B2 b b', coal (B1 ++ b :: B2) -> bal b' = true -> coal (B1 ++ b' :: B2).
Proof. intros B1 B2 b b' H E. rewrite coal_app, coal_cons in *. cbn [map hd]. rewrite E. intuition. Qed.
Lemma coal_split : forall B1 B2 b b' c, coal (B1 ++ b :: B2) -> bal b = false -> bal b' = true -> bal c = false -> coal (B1 ++ b' :: c :: B2).
Proof. intros B1 B2 b b' c H F E C. rewrite coal_app, !coal_cons in *. cbn [map hd] in *. rewrite E, F in *. intuition congruence. Qed.

(** ** join_next *)
Definition frame (B : list blk) (m m' : words) : Prop := forall w, outside (addrs B) w -> m' w = m w.

Lemma join_next_run : forall m h B1 b0 B2 F lim, HC m h (B1 ++ b0 :: B2) F lim -> bal b0 = false ->
  (lim = 0 \/ (lim = ba b0 /\ ld m (ba b0) PFREEf = 0 /\ ld m (ba b0) NFREEf = 0)) ->
  match B2 with
  | n :: B3 => if bal n then join_next m h (ba b0) = (m, h, false)
               else exists m' h' F', join_next m h (ba b0) = (m', h', true) /\ HC m' h' (B1 ++ mkBlk (ba b0) (bs b0 + 64 + bs n) false :: B3) F' 0 /\
                      frame (B1 ++ b0 :: B2) m m' /\ same_ctx h h'
  | [] => join_next m h (ba b0) = (m, h, false)
  end.
Proof.
  intros m h B1 b0 B2 F lim H F0 HL. remember (B1 ++ b0 :: B2) as B eqn:EB.
  assert (I0 : In b0 B) by (rewrite EB; apply mid_cases; auto). destruct (c_hdr _ _ _ _ _ H b0 I0) as (E0 & E1 & E2 & E3 & E4 & E7 & E56).
  pose proof (c_tiles _ _ _ _ _ H) as T. pose proof (tiles_nd _ _ _ T) as NDA. pose proof (tiles_sep _ _ _ T) as SE. pose proof (tiles_nz _ _ _ T (c_pos _ _ _ _ _ H)) as NZ.
  assert (NX : ld m (ba b0) NEXTf = hd 0 (addrs B2)).
  { unfold NEXTf. rewrite E4. rewrite EB, addrs_app in NDA |- *. cbn [addrs map] in *. apply l_next, NDA. }
  unfold join_next. rewrite NX. destruct B2 as [|n B3]; [reflexivity|]. cbn [addrs map hd].
  assert (In_ : In n B) by (rewrite EB, in_app_iff; cbn; auto). pose proof (HC_nz _ _ _ _ _ _ H In_) as Zn.
  destruct (c_hdr _ _ _ _ _ H n In_) as (P0 & P1 & P2 & P3 & P4 & P7 & P56). rewrite (proj2 (N.eqb_neq _ _) Zn). change (ld m (ba n) ALLOCf = if bal n then 1 else 0) in P2. rewrite P2.
  destruct (bal n) eqn:Fn; [reflexivity|]. change ((if false then 1 else 0) =? 0) with true. cbn [negb andb].
  pose proof (in_addr _ _ I0) as IA. pose proof (in_addr _ _ In_) as IAn.
  assert (NAN : ba b0 <> ba n).
  { rewrite EB, addrs_app in NDA. cbn [addrs map] in NDA. intro K. apply (NoDup_remove_2 _ _ _ NDA). rewrite in_app_iff. cbn. auto. }
  assert (SZ : wrap (ld m (ba b0) SIZEf + (HDR + ld m (ba n) SIZEf)) = bs b0 + 64 + bs n).
  { unfold SIZEf, HDR, wrap. rewrite E1, P1. pose proof (c_end _ _ _ _ _ H). rewrite EB in T. rewrite tiles_app in T. destruct T as (c & _ & T). cbn [tiles] in T. destruct T as (U1 & U2 & U3).
    apply tiles_len in U3. rewrite N.mod_small; lia. }
  rewrite SZ. clear SZ. remember (st m (ba b0) SIZEf (bs b0 + 64 + bs n)) as m1 eqn:D1.
  pose proof (rep_st _ _ _ _ _ SIZEf (bs b0 + 64 + bs n) SE (rep0 (addrs B) m) IA eq_refl) as R1. rewrite <- D1 in R1.
  assert (L1 : ld m1 (ba n) NEXTf = next_of (addrs B) (ba n)) by (pose proof (proj1 R1 (ba n) NEXTf IAn eq_refl) as X; sv X; rewrite P4 in X; exact X).
  rewrite L1. remember (st m1 (ba b0) NEXTf (next_of (addrs B) (ba n))) as m2 eqn:D2.
  apply (rep_st _ _ _ _ (ba b0) NEXTf (next_of (addrs B) (ba n)) SE) in R1; [|exact IA|reflexivity]. rewrite <- D2 in R1.
  assert (L5 : ld m2 (ba b0) PFREEf = ld m (ba b0) PFREEf) by (pose proof (proj1 R1 (ba b0) PFREEf IA eq_refl) as X; sv X; exact X).
  assert (L6 : ld m2 (ba b0) NFREEf = ld m (ba b0) NFREEf) by (pose proof (proj1 R1 (ba b0) NFREEf IA eq_refl) as X; sv X; exact X).
  rewrite L5, L6.
  (* the block leaves the list of free blocks, if it is in it *)
  assert (ST : exists m4 h4 mm F4,
    (if negb (ld m (ba b0) PFREEf =? 0) || negb (ld m (ba b0) NFREEf =? 0)
     then (st_if (st_if m2 (ld m (ba b0) PFREEf) NFREEf (ld m (ba b0) NFREEf)) (ld (st_if m2 (ld m (ba b0) PFREEf) NFREEf (ld m (ba b0) NFREEf)) (ba b0) NFREEf) PFREEf (ld (st_if m2 (ld m (ba b0) PFREEf) NFREEf (ld m (ba b0) NFREEf)) (ba b0) PFREEf),
           if ld m (ba b0) PFREEf =? 0 then set_free h (ld m (ba b0) NFREEf) else h)
     else (m2, h)) = (m4, h4) /\ HC mm h4 B F4 (ba b0) /\ same_ctx h h4 /\
    rep (addrs B) m m4 (vput (vput (ld mm) (ba b0) SIZEf (bs b0 + 64 + bs n)) (ba b0) NEXTf (next_of (addrs B) (ba n)))).
  { destruct HL as [->|(-> & Z5 & Z6)].
    - destruct (hdr_full _ _ _ _ _ H b0 I0 (HC_nz _ _ _ _ _ _ H I0)) as (_ & _ & _ & _ & _ & E5 & E6 & _).
      assert (IF : In (ba b0) F) by (apply (c_in _ _ _ _ _ H); split; [exact (HC_nz _ _ _ _ _ _ H I0)|eauto]).
      assert (JF : In (ba n) F) by (apply (c_in _ _ _ _ _ H); split; [exact Zn|eauto]).
      pose proof (c_nd _ _ _ _ _ H) as ND. pose proof (HC_fnz _ _ _ _ _ H) as NZF. destruct (HC_ptr _ _ _ _ _ (ba b0) H) as (Q1 & Q2 & _).
      assert (NZ2 : negb (prev_of F (ba b0) =? 0) || negb (next_of F (ba b0) =? 0) = true).
      { apply in_split in IF. destruct IF as (F1 & F2 & EF). rewrite EF in ND, NZF, JF |- *. rewrite l_prev, l_next by exact ND. apply mid_cases in JF. destruct JF as [K|JF]; [congruence|].
        apply in_app_iff in JF. destruct JF as [JF|JF].
        - replace (last F1 0 =? 0) with false; [reflexivity|]. symmetry. apply N.eqb_neq. intro K. apply NZF. rewrite in_app_iff. left. rewrite <- K. apply last_in. intro Z. rewrite Z in JF. destruct JF.
        - replace (hd 0 F2 =? 0) with false; [apply orb_true_r|]. symmetry. apply N.eqb_neq. intro K. apply NZF. rewrite in_app_iff. right. right. destruct F2 as [|y F2]; [destruct JF|]. cbn in K. rewrite <- K. cbn. auto. }
      remember (prev_of F (ba b0)) as pf eqn:Epf. remember (next_of F (ba b0)) as nf eqn:Enf.
      assert (NB1 : pf <> ba b0) by (rewrite Epf; apply in_split in IF; destruct IF as (F1 & F2 & EF); rewrite EF in *; apply prev_ne; assumption).
      assert (NB2 : nf <> ba b0) by (rewrite Enf; apply in_split in IF; destruct IF as (F1 & F2 & EF); rewrite EF in *; apply next_ne; assumption).
      replace (ld m (ba b0) PFREEf) with pf by (symmetry; exact E5). replace (ld m (ba b0) NFREEf) with nf by (symmetry; exact E6). rewrite NZ2.
      pose proof (rep_if _ _ _ _ pf NFREEf nf SE NZ R1 Q1 eq_refl) as R3. remember (st_if m2 pf NFREEf nf) as m3 eqn:D3.
      assert (M5 : ld m3 (ba b0) PFREEf = pf) by (pose proof (proj1 R3 (ba b0) PFREEf IA eq_refl) as X; sv X; rewrite E5 in X; exact X).
      assert (M6 : ld m3 (ba b0) NFREEf = nf).
      { pose proof (proj1 R3 (ba b0) NFREEf IA eq_refl) as X; sv X. rewrite (proj2 (N.eqb_neq (ba b0) pf)) in X by congruence. rewrite E6 in X. exact X. }
      rewrite M5, M6. pose proof (rep_if _ _ _ _ nf PFREEf pf SE NZ R3 Q2 eq_refl) as R4.
      apply in_split in IF. destruct IF as (F1 & F2 & EF). rewrite EF in H, Epf, Enf.
      exists (st_if m3 nf PFREEf pf), (if pf =? 0 then set_free h nf else h), (st_if (st_if m pf NFREEf nf) nf PFREEf pf), (F1 ++ F2).
      split; [reflexivity|]. assert (W : with_free h (if pf =? 0 then set_free h nf else h) (if pf =? 0 then nf else hc_free h)) by (destruct (pf =? 0); [apply with_set|repeat split]).
      split; [|split; [eapply with_same; exact W|]].
      + apply (unlink_ok m h B F1 F2 (ba b0) _ _ H); rewrite <- Epf, <- Enf; [reflexivity|exact W].
      + split; [|exact (proj2 R4)]. intros b f Ib Hf. rewrite (proj1 R4 b f Ib Hf).
        pose proof (rep_if _ _ _ _ pf NFREEf nf SE NZ (rep0 (addrs B) m) Q1 eq_refl) as S1. apply (rep_if _ _ _ _ nf PFREEf pf SE NZ) in S1; [|exact Q2|reflexivity].
        pose proof (proj1 S1 b f Ib Hf) as S2. unfold vput in S2 |- *. rewrite S2. unfold PFREEf, NFREEf, SIZEf, NEXTf.
        destruct (N.eqb_spec f 6), (N.eqb_spec f 5), (N.eqb_spec f 4), (N.eqb_spec f 1); subst; try discriminate; repeat rewrite andb_false_r; reflexivity.
    - rewrite Z5, Z6. cbn [N.eqb negb orb]. exists m2, h, m, F. split; [reflexivity|]. split; [exact H|]. split; [apply same_ctx_refl|exact R1]. }
  destruct ST as (m4 & h4 & mm & F4 & ST & H4 & SC & R4). rewrite ST. clear ST.
  assert (JF : In (ba n) F4) by (apply (c_in _ _ _ _ _ H4); split; [congruence|eauto]). apply in_split in JF. destruct JF as (G1 & G2 & EG). rewrite EG in H4. rewrite EB in H4, R4.
  set (m5 := st m4 (ba b0) PFREEf (ld m4 (ba n) PFREEf)). set (m6 := st m5 (ba b0) NFREEf (ld m5 (ba n) NFREEf)).
  set (h' := if ld m6 (ba b0) PFREEf =? 0 then set_free h4 (ba b0) else h4).
  assert (W : with_free h4 h' (if ld m6 (ba b0) PFREEf =? 0 then ba b0 else hc_free h4)) by (unfold h'; destruct (_ =? 0); [apply with_set|repeat split]).
  destruct (join_next_ok m mm m4 h4 B1 B3 b0 n G1 G2 m5 m6 _ _ _ _ h' H4 F0 Fn R4 eq_refl eq_refl W eq_refl eq_refl eq_refl eq_refl) as [HH FR].
  eexists _, h', _. split; [reflexivity|]. split; [exact HH|]. split; [intros w; rewrite EB; apply FR|]. exact (same_trans _ _ _ SC (with_same _ _ _ W)).
Qed.

(** ** free *)
Lemma destruct_last : forall T (l : list T), l = [] \/ exists l' x, l = l' ++ [x].
Proof. intros T l. destruct l as [|y l]; [auto|]. right. destruct (exists_last (l := y :: l)) as (l' & x & E); [discriminate|]. eauto. Qed.
Lemma join_prev_run : forall m h B1 b0 B2 F, HC m h (B1 ++ b0 :: B2) F (ba b0) -> bal b0 = false ->
  (join_prev m (ba b0) = (m, ba b0, false) /\ last (map bal B1) true = true) \/
  (exists B0 p m', B1 = B0 ++ [p] /\ bal p = false /\ join_prev m (ba b0) = (m', ba p, true) /\
     HC m' h (B0 ++ mkBlk (ba p) (bs p + 64 + bs b0) false :: B2) F 0 /\ frame (B1 ++ b0 :: B2) m m').
Proof.
  intros m h B1 b0 B2 F H F0. remember (B1 ++ b0 :: B2) as B eqn:EB. assert (I0 : In b0 B) by (rewrite EB; apply mid_cases; auto).
  destruct (c_hdr _ _ _ _ _ H b0 I0) as (_ & _ & _ & E3 & _). change (ld m (ba b0) PREVf = prev_of (addrs B) (ba b0)) in E3.
  assert (NX : ld m (ba b0) PREVf = last (addrs B1) 0).
  { rewrite E3. pose proof (tiles_nd _ _ _ (c_tiles _ _ _ _ _ H)) as NDA. rewrite EB, addrs_app in NDA |- *. apply l_prev, NDA. }
  destruct (destruct_last _ B1) as [->|(B0 & p & ->)].
  - left. split; [|reflexivity]. unfold join_prev. rewrite NX. reflexivity.
  - unfold join_prev. rewrite NX. unfold addrs. rewrite map_app. cbn [map]. rewrite last_last. rewrite map_app. cbn [map]. rewrite last_last.
    assert (Ip : In p B) by (rewrite EB, !in_app_iff; cbn; auto). rewrite (proj2 (N.eqb_neq _ _) (HC_nz _ _ _ _ _ _ H Ip)).
    destruct (c_hdr _ _ _ _ _ H p Ip) as (_ & _ & E2 & _). change (ld m (ba p) ALLOCf = if bal p then 1 else 0) in E2. rewrite E2. destruct (bal p) eqn:Fp; [left; auto|].
    change ((if false then 1 else 0) =? 0) with true. cbn [negb andb]. right. eexists B0, p, _. split; [reflexivity|]. split; [exact Fp|]. split; [reflexivity|].
    rewrite EB in H |- *. rewrite <- app_assoc in *. cbn [app] in *. exact (join_prev_ok _ _ _ _ _ _ _ _ _ _ _ H Fp F0 eq_refl eq_refl eq_refl eq_refl).
Qed.

Lemma free_core : forall m h B F b0, HI m h B F -> In b0 B -> bal b0 = true -> 0 < bs b0 ->
  exists m' h' B' F', free_with_heap m h (ba b0 + 64) = (if N.land (hc_verify h) VERIFY_FREE =? 0 then Some (m', h') else None) /\
    HI m' h' B' F' /\ frame B m m' /\ same_ctx h h' /\ (forall b, bal b = true -> (In b B' <-> In b B /\ b <> b0)).
Proof.
  intros m h B F b0 [H CO] I0 A0 S0. pose proof (c_tiles _ _ _ _ _ H) as T. pose proof (tiles_in _ _ _ _ T I0) as [T1 T2]. pose proof (c_pos _ _ _ _ _ H) as PO. pose proof (c_end _ _ _ _ _ H) as CE.
  assert (HD : wrap (ba b0 + 64 + (2 ^ 64 - HDR)) = ba b0) by (unfold wrap, HDR; lia).
  destruct (c_hdr _ _ _ _ _ H b0 I0) as (_ & _ & E2 & _). rewrite A0 in E2. change (ld m (ba b0) ALLOCf = 1) in E2.
  remember (bs b0) as sz eqn:Esz. remember (ba b0) as a eqn:Ea.
  destruct (in_split _ _ I0) as (B1 & B2 & EB). set (m1 := st m a ALLOCf 0). rewrite EB in H.
  destruct (release_ok m h B1 B2 b0 F a m1 H (eq_sym Ea) A0 eq_refl) as (H1 & Z5 & Z6 & FR1). rewrite <- EB in FR1, H. rewrite <- Esz in H1.
  (* the end of the function *)
  assert (FIN : forall m' h' B' F', HI m' h' B' F' -> same_ctx h h' ->
    (if N.land (hc_verify h') VERIFY_FREE =? 0 then Some (m', h') else match verify_chain m' h' with Some false => Some (m', h') | _ => None end) =
    (if N.land (hc_verify h) VERIFY_FREE =? 0 then Some (m', h') else None)).
  { intros m' h' B' F' [HH _] (_ & _ & _ & V). rewrite V, (HC_verify _ _ _ _ HH). reflexivity. }
  assert (OUT : free_with_heap m h (a + 64) =
    let '(m, hdr, j1) := join_prev m1 a in let '(m, h, j2) := join_next m h hdr in
    let '(m, h) := (if j1 || j2 then (m, h) else (st_if (st m hdr NFREEf (hc_free h)) (hc_free h) PFREEf hdr, set_free h hdr)) in
    if N.land (hc_verify h) VERIFY_FREE =? 0 then Some (m, h) else match verify_chain m h with Some false => Some (m, h) | _ => None end).
  { pose proof (HC_header _ _ _ _ _ H I0) as VH. rewrite <- Ea in VH. unfold free_with_heap. rewrite (c_first _ _ _ _ _ H), HD, VH, E2. unfold wrap. rewrite (N.mod_small (hc_buf h + hc_len h)) by exact CE.
    replace ((a + 64 =? 0) || (hc_buf h =? 0) || (hc_buf h =? 0)) with false by lia. replace ((a + 64 <? hc_buf h) || (hc_buf h + hc_len h <=? a + 64)) with false by lia. reflexivity. }
  rewrite OUT. clear OUT HD E2. rewrite EB in T, CO.
  assert (OTH : forall b, bal b = true -> (In b (B1 ++ B2) <-> In b B /\ b <> b0)).
  { intros b Ab. rewrite EB, mid_cases. split.
    - intro Ib. split; [auto|]. destruct (other_ne _ _ _ _ _ _ T Ib) as [_ N]. congruence.
    - intros [[K|K] N]; [contradiction|exact K]. }
  assert (AD : addrs (B1 ++ mkBlk a sz false :: B2) = addrs B) by (rewrite EB; apply addrs_same; exact Ea).
  destruct (join_prev_run m1 h B1 (mkBlk a sz false) B2 F H1 eq_refl) as [[JP LB]|(B0 & p & m2 & EB1 & Fp & JP & H2 & FR2)]; cbn [ba bs] in JP; rewrite JP.
  - (* not joined with the block before *)
    pose proof (join_next_run m1 h B1 (mkBlk a sz false) B2 F a H1 eq_refl) as JN. cbn [ba bs] in JN. specialize (JN (or_intror (conj eq_refl (conj Z5 Z6)))).
    assert (PRE : join_next m1 h a = (m1, h, false) -> hd true (map bal B2) = true -> exists m' h' B' F',
      (let '(m, h, j2) := join_next m1 h a in
       let '(m, h) := (if false || j2 then (m, h) else (st_if (st m a NFREEf (hc_free h)) (hc_free h) PFREEf a, set_free h a)) in
       if N.land (hc_verify h) VERIFY_FREE =? 0 then Some (m, h) else match verify_chain m h with Some false => Some (m, h) | _ => None end) =
      (if N.land (hc_verify h) VERIFY_FREE =? 0 then Some (m', h') else None) /\
      HI m' h' B' F' /\ frame B m m' /\ same_ctx h h' /\ (forall b, bal b = true -> (In b B' <-> In b B /\ b <> b0))).
    { intros JN' HB. rewrite JN'. cbn [orb].
      assert (IA : In a (addrs (B1 ++ mkBlk a sz false :: B2))) by (rewrite addrs_app, in_app_iff; cbn; auto).
      destruct (prepend_ok m1 h _ F a (st_if (st m1 a NFREEf (hc_free h)) (hc_free h) PFREEf a) (set_free h a) H1 IA Z5) as [H3 FR3]; [|reflexivity|apply with_set|].
      { intros b Ib Eb. apply mid_cases in Ib. destruct Ib as [->|Ib]; [reflexivity|]. rewrite <- EB in T. pose proof (c_tiles _ _ _ _ _ H1) as TT. destruct (other_ne _ _ _ _ _ _ TT Ib) as [_ N]. cbn in N. congruence. }
      assert (HH : HI (st_if (st m1 a NFREEf (hc_free h)) (hc_free h) PFREEf a) (set_free h a) (B1 ++ mkBlk a sz false :: B2) (a :: F)).
      { split; [exact H3|]. rewrite coal_app, coal_cons in *. cbn [map hd bal]. tauto. }
      eexists _, (set_free h a), _, _. split; [apply (FIN _ _ _ _ HH); repeat split|]. split; [exact HH|].
      split; [intros w O; rewrite FR3, FR1; [reflexivity|exact O|rewrite AD; exact O]|]. split; [repeat split|].
      intros b Ab. rewrite mid_cases, <- OTH by exact Ab. split; [intros [->|K]; [discriminate Ab|exact K]|auto]. }
    destruct B2 as [|n B3]; [exact (PRE JN eq_refl)|]. destruct (bal n) eqn:Fn; [apply (PRE JN); cbn; exact Fn|]. clear PRE.
    destruct JN as (m' & h' & F' & JN & H3 & FR3 & SC). rewrite JN. cbn [orb].
    assert (HH : HI m' h' (B1 ++ mkBlk a (sz + 64 + bs n) false :: B3) F').
    { split; [exact H3|]. rewrite coal_app, !coal_cons in *. cbn [map hd bal] in *. rewrite Fn in CO. intuition congruence. }
    eexists m', h', _, F'. split; [apply (FIN _ _ _ _ HH SC)|]. split; [exact HH|].
    split; [intros w O; rewrite FR3, FR1; [reflexivity|exact O|rewrite AD; exact O]|]. split; [exact SC|].
    intros b Ab. rewrite <- OTH by exact Ab. rewrite !mid_cases. split; [intros [->|K]; [discriminate Ab|auto]|intros [->|K]; [congruence|auto]].
  - (* joined with the block before *)
    pose proof (join_next_run m2 h B0 (mkBlk (ba p) (bs p + 64 + sz) false) B2 F 0 H2 eq_refl (or_introl eq_refl)) as JN. cbn [ba bs] in JN. rewrite EB1 in CO. rewrite <- app_assoc in CO. cbn [app] in CO.
    assert (OTH' : forall b, bal b = true -> (In b (B0 ++ B2) <-> In b B /\ b <> b0)).
    { intros b Ab. rewrite <- OTH by exact Ab. rewrite EB1, <- app_assoc. cbn [app]. rewrite mid_cases. split; [auto|]. intros [->|K]; [congruence|exact K]. }
    assert (PRE : join_next m2 h (ba p) = (m2, h, false) -> hd true (map bal B2) = true -> exists m' h' B' F',
      (let '(m, h, j2) := join_next m2 h (ba p) in
       let '(m, h) := (if true || j2 then (m, h) else (st_if (st m (ba p) NFREEf (hc_free h)) (hc_free h) PFREEf (ba p), set_free h (ba p))) in
       if N.land (hc_verify h) VERIFY_FREE =? 0 then Some (m, h) else match verify_chain m h with Some false => Some (m, h) | _ => None end) =
      (if N.land (hc_verify h) VERIFY_FREE =? 0 then Some (m', h') else None) /\
      HI m' h' B' F' /\ frame B m m' /\ same_ctx h h' /\ (forall b, bal b = true -> (In b B' <-> In b B /\ b <> b0))).
    { intros JN' HB. rewrite JN'. cbn [orb].
      assert (HH : HI m2 h (B0 ++ mkBlk (ba p) (bs p + 64 + sz) false :: B2) F).
      { split; [exact H2|]. rewrite coal_app, !coal_cons in *. cbn [map hd bal] in *. rewrite Fp in CO. intuition. }
      eexists m2, h, _, _. split; [apply (FIN _ _ _ _ HH); repeat split|]. split; [exact HH|].
      split; [intros w O; rewrite FR2, FR1; [reflexivity|exact O|rewrite AD; exact O]|]. split; [repeat split|].
      intros b Ab. rewrite mid_cases, <- OTH' by exact Ab. split; [intros [->|K]; [discriminate Ab|exact K]|auto]. }
    destruct B2 as [|n B3]; [exact (PRE JN eq_refl)|]. destruct (bal n) eqn:Fn; [apply (PRE JN); cbn; exact Fn|]. clear PRE.
    destruct JN as (m' & h' & F' & JN & H3 & FR3 & SC). rewrite JN. cbn [orb].
    assert (HH : HI m' h' (B0 ++ mkBlk (ba p) (bs p + 64 + sz + 64 + bs n) false :: B3) F').
    { split; [exact H3|]. rewrite coal_app, !coal_cons in *. cbn [map hd bal] in *. rewrite Fp, Fn in CO. intuition congruence. }
    eexists m', h', _, F'. split; [apply (FIN _ _ _ _ HH SC)|]. split; [exact HH|].
    split.
    { intros w O. assert (O2 : outside (addrs (B1 ++ mkBlk a sz false :: n :: B3)) w) by (rewrite AD; exact O). rewrite FR3; [rewrite FR2, FR1; auto|]. intros x Ix. apply O2. rewrite EB1, <- app_assoc. cbn [app].
      rewrite addrs_app, in_app_iff in *. cbn [addrs map In ba] in *. tauto. }
    split; [exact SC|].
    intros b Ab. rewrite <- OTH' by exact Ab. rewrite !mid_cases. split; [intros [->|K]; [discriminate Ab|auto]|intros [->|K]; [congruence|auto]].
Qed.
