(** Proofs about the functions on memory and strings. *)
From Coq Require Import NArith ZArith List Bool Lia.
From Verif Require Import Libc SpecLibc.
Import ListNotations.
Local Open Scope N_scope.

Lemma len_cons x l : len (x :: l) = len l + 1.
Proof. unfold len; cbn [length]; lia. Qed.
Lemma holds_cons m p x l : holds m p (x :: l) -> m p = Some x /\ holds m (p + 1) l.
Proof.
  intros H; split.
  - generalize (H 0 ltac:(rewrite len_cons; lia)); rewrite N.add_0_r; auto.
  - intros i Hi. specialize (H (i + 1) ltac:(rewrite len_cons; lia)).
    replace (p + (i + 1)) with (p + 1 + i) in H by lia.
    rewrite H. replace (N.to_nat (i + 1)) with (S (N.to_nat i)) by lia. reflexivity.
Qed.

(** Copies *)
Lemma object_upd m p n d b : object m p n -> object (upd m d b) p n.
Proof. intros H i Hi; unfold upd; destruct (_ =? _); [discriminate | auto]. Qed.
Lemma object_tl m p n n' : n' + 1 = n -> object m p n -> object m (p + 1) n'.
Proof. intros E H i Hi; replace (p + 1 + i) with (p + (i + 1)) by lia; apply H; lia. Qed.
Lemma object_le m p n n' : n' <= n -> object m p n -> object m p n'.
Proof. intros E H i Hi; apply H; lia. Qed.

Lemma move1_ok m d s : m d <> None -> m s <> None -> exists b, m s = Some b /\ move1 m d s = Ok (upd m d b).
Proof.
  intros Hd Hs; unfold move1; destruct (m s) as [b |]; [| congruence].
  exists b; split; [reflexivity |]; destruct (m d); [reflexivity | congruence].
Qed.

Lemma memcpy_loop_ok n : forall m d s, object m s (N.of_nat n) -> object m d (N.of_nat n) ->
  (d <= s \/ s + N.of_nat n <= d) ->
  exists m', memcpy_loop n m d s = Ok m' /\ copied m m' d s (N.of_nat n).
Proof.
  induction n as [| n IH]; intros m d s Hs Hd Ho; cbn [memcpy_loop].
  - exists m; split; [reflexivity |]. intros x.
    destruct (N.leb_spec d x); cbn [andb]; [| reflexivity].
    destruct (N.ltb_spec x (d + N.of_nat 0)); [lia | reflexivity].
  - assert (M0 : m s <> None) by (replace s with (s + 0) by lia; apply Hs; lia).
    assert (M1 : m d <> None) by (replace d with (d + 0) by lia; apply Hd; lia).
    destruct (move1_ok m d s M1 M0) as (b & Eb & ->).
    destruct (IH (upd m d b) (d + 1) (s + 1)) as (m' & E & C).
    + apply object_upd, object_tl with (n := N.of_nat (S n)); [lia | exact Hs].
    + apply object_upd, object_tl with (n := N.of_nat (S n)); [lia | exact Hd].
    + lia.
    + exists m'; split; [exact E |]. intros x. rewrite C. unfold upd.
      destruct (N.leb_spec (d + 1) x), (N.ltb_spec x (d + 1 + N.of_nat n)),
        (N.leb_spec d x), (N.ltb_spec x (d + N.of_nat (S n))); cbn [andb]; try lia;
        try (destruct (N.eqb_spec x d); [lia | reflexivity]).
      * destruct (N.eqb_spec (s + 1 + (x - (d + 1))) d); [lia |].
        f_equal; lia.
      * destruct (N.eqb_spec x d); [| lia]. subst x. rewrite N.sub_diag, N.add_0_r; auto.
Qed.
Lemma memcpy_ok_ m dst src n : object m src n -> object m dst n -> (dst <= src \/ src + n <= dst) ->
  exists m', memcpy m dst src n = Ok m' /\ copied m m' dst src n.
Proof.
  intros. destruct (memcpy_loop_ok (N.to_nat n) m dst src) as (m' & E & C);
    rewrite ?N2Nat.id in *; eauto.
Qed.

Lemma back_loop_ok n : forall fuel m d s e, d = e + N.of_nat n -> N.of_nat n <= s -> (n <= fuel)%nat ->
  object m e (N.of_nat n) -> object m (s - N.of_nat n) (N.of_nat n) -> s - N.of_nat n <= e ->
  exists m', back_loop fuel m d s e = Ok m' /\ copied m m' e (s - N.of_nat n) (N.of_nat n).
Proof.
  induction n as [| n IH]; intros fuel m d s e -> Hs Hf He Ho Hov.
  - exists m; split; [destruct fuel; cbn [back_loop]; rewrite N.add_0_r, N.eqb_refl; reflexivity |].
    intros x. destruct (N.leb_spec e x); cbn [andb]; [| reflexivity].
    destruct (N.ltb_spec x (e + N.of_nat 0)); [lia | reflexivity].
  - destruct fuel as [| fuel]; [lia |]. cbn [back_loop].
    destruct (N.eqb_spec (e + N.of_nat (S n)) e) as [X | _]; [lia |].
    assert (M0 : m (s - 1) <> None).
    { replace (s - 1) with (s - N.of_nat (S n) + N.of_nat n) by lia; apply Ho; lia. }
    assert (M1 : m (e + N.of_nat (S n) - 1) <> None).
    { replace (e + N.of_nat (S n) - 1) with (e + N.of_nat n) by lia; apply He; lia. }
    destruct (move1_ok _ _ _ M1 M0) as (b & Eb & ->).
    destruct (IH fuel (upd m (e + N.of_nat (S n) - 1) b) (e + N.of_nat (S n) - 1) (s - 1) e) as (m' & E & C);
      try lia.
    + apply object_upd, object_le with (n := N.of_nat (S n)); [lia | exact He].
    + apply object_upd. replace (s - 1 - N.of_nat n) with (s - N.of_nat (S n)) by lia.
      apply object_le with (n := N.of_nat (S n)); [lia | exact Ho].
    + exists m'; split; [exact E |]. intros x. rewrite C. unfold upd.
      destruct (N.leb_spec e x), (N.ltb_spec x (e + N.of_nat n)), (N.ltb_spec x (e + N.of_nat (S n))); cbn [andb]; try lia.
      * destruct (N.eqb_spec (s - 1 - N.of_nat n + (x - e)) (e + N.of_nat (S n) - 1)); [lia |]. f_equal; lia.
      * destruct (N.eqb_spec x (e + N.of_nat (S n) - 1)); [| lia]. rewrite <- Eb. f_equal; lia.
      * destruct (N.eqb_spec x (e + N.of_nat (S n) - 1)); [lia | reflexivity].
      * destruct (N.eqb_spec x (e + N.of_nat (S n) - 1)); [lia | reflexivity].
Qed.
Lemma wrap_diff dst src n : dst + n <= 2 ^ 64 -> src + n <= 2 ^ 64 -> 0 < n ->
  (n <= (dst + 2 ^ 64 - src) mod 2 ^ 64 <-> dst < src \/ src + n <= dst).
Proof.
  generalize (2 ^ 64). intros W Hd Hs Hn.
  destruct (N.lt_ge_cases dst src) as [L | G].
  - rewrite N.mod_small by lia. lia.
  - replace (dst + W - src) with (dst - src + 1 * W) by lia.
    rewrite N.mod_add, N.mod_small by lia. lia.
Qed.
Lemma memmove_ok_ fuel m dst src n : object m src n -> object m dst n ->
  dst + n <= 2 ^ 64 -> src + n <= 2 ^ 64 -> n <= N.of_nat fuel ->
  exists m', memmove fuel m dst src n = Ok m' /\ copied m m' dst src n.
Proof.
  intros Hs Hd Wd Ws Hf. unfold memmove.
  destruct (N.eq_dec n 0) as [-> | NZ].
  - destruct (N.leb_spec 0 ((dst + 2 ^ 64 - src) mod 2 ^ 64)) as [_ | X]; [| apply N.nlt_0_r in X; contradiction].
    exists m; split; [reflexivity |]. intros x.
    destruct (N.leb_spec dst x); cbn [andb]; [| reflexivity].
    destruct (N.ltb_spec x (dst + 0)); [clear - H H0; lia | reflexivity].
  - pose proof (wrap_diff dst src n Wd Ws ltac:(clear - NZ; lia)) as W.
    destruct (N.leb_spec n ((dst + 2 ^ 64 - src) mod 2 ^ 64)) as [L | L].
    + apply memcpy_ok_; auto. apply W in L. clear - L; lia.
    + assert (Q : ~ (dst < src \/ src + n <= dst)) by (intros Q; apply W in Q; exact (N.lt_irrefl _ (N.lt_le_trans _ _ _ L Q))).
      clear W L Wd Ws.
      destruct (back_loop_ok (N.to_nat n) fuel m (dst + n) (src + n) dst) as (m' & E & C);
        rewrite ?N2Nat.id, ?N.add_sub in *; eauto; lia.
Qed.

(** Comparisons *)
Lemma diff_cmp a b : Z.compare (diff a b) 0 = (a ?= b).
Proof. unfold diff. rewrite <- N2Z.inj_compare. apply eq_sym, Z.compare_sub. Qed.
Lemma diff_z a b : (diff a b =? 0)%Z = (a =? b).
Proof. unfold diff. destruct (N.eqb_spec a b), (Z.eqb_spec (Z.of_N a - Z.of_N b) 0); auto; lia. Qed.
Lemma cmp_ne a b : a <> b -> forall x : comparison, match a ?= b with Eq => x | c => c end = (a ?= b).
Proof. intros N x; destruct (N.compare_spec a b); congruence. Qed.

Lemma memcmp_loop_ok l1 : forall l2 m s1 s2, length l1 = length l2 -> holds m s1 l1 -> holds m s2 l2 ->
  exists r, memcmp_loop (length l1) m s1 s2 = Ok r /\ Z.compare r 0 = lex l1 l2.
Proof.
  induction l1 as [| a l1 IH]; intros [| b l2] m s1 s2 L H1 H2; try discriminate L; cbn [memcmp_loop length lex].
  - eauto.
  - destruct (holds_cons _ _ _ _ H1) as [-> T1], (holds_cons _ _ _ _ H2) as [-> T2].
    rewrite diff_z. destruct (N.eqb_spec a b) as [-> | N].
    + rewrite N.compare_refl. apply IH; auto.
    + rewrite (cmp_ne _ _ N). eexists; split; [reflexivity | apply diff_cmp].
Qed.
Lemma memcmp_ok_ m s1 s2 n l1 l2 : len l1 = n -> len l2 = n -> holds m s1 l1 -> holds m s2 l2 ->
  exists r, memcmp m s1 s2 n = Ok r /\ Z.compare r 0 = lex l1 l2.
Proof.
  intros E1 E2 H1 H2. unfold memcmp.
  replace (N.to_nat n) with (length l1) by (unfold len in *; lia).
  apply memcmp_loop_ok; auto. unfold len in *; lia.
Qed.

Lemma string_cons m p x l : string_at m p (x :: l) -> x <> 0 /\ m p = Some x /\ string_at m (p + 1) l.
Proof.
  intros [F H]. inversion F; subst. cbn [app] in H. destruct (holds_cons _ _ _ _ H) as [E T].
  repeat split; auto.
Qed.
Lemma string_nil m p : string_at m p [] -> m p = Some 0.
Proof. intros [_ H]. apply (holds_cons _ _ _ _ H). Qed.

Lemma strcmp_ok_ l1 : forall fuel l2 m s1 s2, string_at m s1 l1 -> string_at m s2 l2 -> len l1 < N.of_nat fuel ->
  exists r, strcmp fuel m s1 s2 = Ok r /\ Z.compare r 0 = lex l1 l2.
Proof.
  induction l1 as [| a l1 IH]; intros [| fuel] l2 m s1 s2 H1 H2 F; try (clear - F; lia); cbn [strcmp].
  - rewrite (string_nil _ _ H1). destruct l2 as [| b l2].
    + rewrite (string_nil _ _ H2). cbn. eauto.
    + destruct (string_cons _ _ _ _ H2) as (N & -> & T).
      destruct (N.eqb_spec 0 b); [congruence |]. eexists; split; [reflexivity |].
      rewrite diff_cmp. cbn [lex]. apply N.compare_lt_iff; lia.
  - destruct (string_cons _ _ _ _ H1) as (N & -> & T). destruct l2 as [| b l2].
    + rewrite (string_nil _ _ H2). destruct (N.eqb_spec a 0); [congruence |].
      eexists; split; [reflexivity |]. rewrite diff_cmp. cbn [lex]. apply N.compare_gt_iff; lia.
    + destruct (string_cons _ _ _ _ H2) as (N2 & -> & T2). cbn [lex].
      destruct (N.eqb_spec a b) as [-> | D].
      * destruct (N.eqb_spec b 0); [congruence |]. rewrite N.compare_refl.
        apply IH; auto. rewrite len_cons in F. clear - F; lia.
      * rewrite (cmp_ne _ _ D). eexists; split; [reflexivity | apply diff_cmp].
Qed.

Lemma in_cons m p n x l : string_in m p n (x :: l) -> x <> 0 /\ m p = Some x /\ 0 < n /\ string_in m (p + 1) (n - 1) l.
Proof.
  intros (F & H & C). inversion F; subst. destruct (holds_cons _ _ _ _ H) as [E T]. rewrite len_cons in C.
  repeat split; auto; try lia.
  destruct C as [C | [C C']]; [left; lia | right; split; [lia |]].
  rewrite <- C'. f_equal; lia.
Qed.
Lemma in_nil m p n : string_in m p n [] -> n = 0 \/ 0 < n /\ m p = Some 0.
Proof. intros (_ & _ & [C | [C C']]); cbn in *; [left; auto | right; rewrite N.add_0_r in C'; auto]. Qed.

Lemma strncmp_loop_ok n : forall l1 l2 m s1 s2, string_in m s1 (N.of_nat n) l1 -> string_in m s2 (N.of_nat n) l2 ->
  exists r, strncmp_loop n m s1 s2 = Ok r /\ Z.compare r 0 = lex l1 l2.
Proof.
  induction n as [| n IH]; intros l1 l2 m s1 s2 H1 H2; cbn [strncmp_loop].
  - destruct l1; [| apply in_cons in H1; lia]. destruct l2; [| apply in_cons in H2; lia]. cbn; eauto.
  - destruct l1 as [| a l1], l2 as [| b l2].
    + destruct (in_nil _ _ _ H1) as [X | [_ ->]]; [lia |]. destruct (in_nil _ _ _ H2) as [X | [_ ->]]; [lia |].
      cbn; eauto.
    + destruct (in_nil _ _ _ H1) as [X | [_ ->]]; [lia |].
      destruct (in_cons _ _ _ _ _ H2) as (N & -> & _ & T).
      destruct (N.eqb_spec 0 b); [congruence |]. eexists; split; [reflexivity |].
      rewrite diff_cmp. cbn [lex]. apply N.compare_lt_iff; lia.
    + destruct (in_nil _ _ _ H2) as [X | [_ E]]; [lia |].
      destruct (in_cons _ _ _ _ _ H1) as (N & -> & _ & T). rewrite E.
      destruct (N.eqb_spec a 0); [congruence |].
      eexists; split; [reflexivity |]. rewrite diff_cmp. cbn [lex]. apply N.compare_gt_iff; lia.
    + destruct (in_cons _ _ _ _ _ H1) as (N1 & -> & _ & T1).
      destruct (in_cons _ _ _ _ _ H2) as (N2 & -> & _ & T2). cbn [lex].
      replace (N.of_nat (S n) - 1) with (N.of_nat n) in T1, T2 by lia.
      destruct (N.eqb_spec a b) as [-> | D].
      * destruct (N.eqb_spec b 0); [congruence |]. rewrite N.compare_refl. apply IH; auto.
      * rewrite (cmp_ne _ _ D). eexists; split; [reflexivity | apply diff_cmp].
Qed.
Lemma strncmp_ok_ m s1 s2 n l1 l2 : string_in m s1 n l1 -> string_in m s2 n l2 ->
  exists r, strncmp m s1 s2 n = Ok r /\ Z.compare r 0 = lex l1 l2.
Proof. intros; apply strncmp_loop_ok; rewrite N2Nat.id; auto. Qed.

(** Lengths *)
Lemma strlen_loop_ok l : forall fuel m s n, string_at m s l -> len l < N.of_nat fuel -> strlen_loop fuel m s n = Ok (n + len l).
Proof.
  induction l as [| a l IH]; intros [| fuel] m s n H F; try (clear - F; lia); cbn [strlen_loop].
  - rewrite (string_nil _ _ H). cbn. f_equal; lia.
  - destruct (string_cons _ _ _ _ H) as (N & -> & T). destruct (N.eqb_spec a 0); [congruence |].
    rewrite len_cons in *. rewrite IH; [f_equal; lia | auto | lia].
Qed.
Lemma strlen_ok_ fuel m s l : string_at m s l -> len l < N.of_nat fuel -> strlen fuel m s = Ok (len l).
Proof. intros; unfold strlen; rewrite strlen_loop_ok with (l := l); auto. Qed.
Lemma strnlen_loop_ok n : forall l m s k, string_in m s (N.of_nat n) l -> strnlen_loop n m s k = Ok (k + len l).
Proof.
  induction n as [| n IH]; intros [| a l] m s k H; cbn [strnlen_loop].
  - cbn; f_equal; lia.
  - apply in_cons in H; lia.
  - destruct (in_nil _ _ _ H) as [X | [_ ->]]; [lia |]. cbn. f_equal; lia.
  - destruct (in_cons _ _ _ _ _ H) as (N & -> & _ & T). destruct (N.eqb_spec a 0); [congruence |].
    replace (N.of_nat (S n) - 1) with (N.of_nat n) in T by lia.
    rewrite IH with (l := l); auto. rewrite len_cons. f_equal; lia.
Qed.
Lemma strnlen_ok_ m s n l : string_in m s n l -> strnlen m s n = Ok (len l).
Proof. intros; unfold strnlen; rewrite strnlen_loop_ok with (l := l); [auto | rewrite N2Nat.id; auto]. Qed.

(** Search *)
Lemma strchr_loop_ok l : forall fuel m p c, string_at m p l -> len l < N.of_nat fuel ->
  strchr_loop fuel m p c = Ok (option_map (N.add p) (first_of c (l ++ [0]))).
Proof.
  induction l as [| a l IH]; intros [| fuel] m p c H F; try (clear - F; lia); cbn [strchr_loop app first_of].
  - rewrite (string_nil _ _ H). destruct (0 =? c); cbn; [repeat f_equal; lia | reflexivity].
  - destruct (string_cons _ _ _ _ H) as (N & -> & T). rewrite len_cons in F.
    destruct (a =? c); [cbn; repeat f_equal; lia |].
    destruct (N.eqb_spec a 0); [congruence |]. rewrite IH; [| auto | lia].
    destruct (first_of c (l ++ [0])) as [k |]; cbn [option_map]; [| reflexivity].
    do 2 f_equal. clear; lia.
Qed.

(** strlcpy *)
Lemma holds_upd m p l d b : holds m p l -> d < p \/ p + len l <= d -> holds (upd m d b) p l.
Proof. intros H O i Hi. unfold upd. destruct (N.eqb_spec (p + i) d); [lia | auto]. Qed.
Lemma len_app a b : len (a ++ b) = len a + len b.
Proof. unfold len; rewrite app_length; lia. Qed.
Lemma string_upd m p l d b : string_at m p l -> d < p \/ p + len l < d -> string_at (upd m d b) p l.
Proof. intros [F H] O. split; auto. apply holds_upd; auto. rewrite len_app; change (len [0]) with 1; lia. Qed.
Lemma skip_loop_ok l : forall fuel m s, string_at m s l -> len l < N.of_nat fuel -> skip_loop fuel m s = Ok (s + len l + 1).
Proof.
  induction l as [| a l IH]; intros [| fuel] m s H F; try (clear - F; lia); cbn [skip_loop].
  - rewrite (string_nil _ _ H). cbn. f_equal; lia.
  - destruct (string_cons _ _ _ _ H) as (N & -> & T). destruct (N.eqb_spec a 0); [congruence |].
    rewrite len_cons in *. rewrite IH; [f_equal; lia | auto | lia].
Qed.

Lemma ok4 (m : mem) (k : nat) (a b a' b' : N) : a = a' -> b = b' -> Ok (m, k, a, b) = Ok (m, k, a', b').
Proof. congruence. Qed.
Lemma ok2 (m : mem) (a a' : N) : a = a' -> Ok (m, a) = Ok (m, a').
Proof. congruence. Qed.
Definition cut (m m' : mem) (dst : N) (l : list N) (n : N) : Prop :=
  forall x, m' x = if (dst <=? x) && (x <? dst + n) then Some (nth (N.to_nat (x - dst)) l 0) else m x.
Lemma strlcpy_loop_ok n : forall l m dst src, string_at m src l -> object m dst (N.of_nat n + 1) ->
  (dst + N.of_nat n < src \/ src + len l < dst) ->
  exists m', (N.of_nat n <= len l /\ strlcpy_loop n m dst src = Ok (m', O, dst + N.of_nat n, src + N.of_nat n)
                /\ cut m m' dst l (N.of_nat n)) \/
    (len l < N.of_nat n /\ exists k, strlcpy_loop n m dst src = Ok (m', S k, dst + len l + 1, src + len l + 1)
                /\ cut m m' dst (l ++ [0]) (len l + 1)).
Proof.
  induction n as [| n IH]; intros l m dst src H O D; cbn [strlcpy_loop].
  - exists m; left. split; [lia |]. split; [apply ok4; lia |]. intros x.
    destruct (N.leb_spec dst x); cbn [andb]; [| reflexivity].
    destruct (N.ltb_spec x (dst + N.of_nat 0)); [lia | reflexivity].
  - assert (M1 : m dst <> None) by (replace dst with (dst + 0) by lia; apply O; lia).
    destruct l as [| a l].
    + exists (upd m dst 0). right. split; [cbn; lia |]. exists n.
      destruct (move1_ok m dst src M1) as (b & Eb & ->); [rewrite (string_nil _ _ H); discriminate |].
      rewrite (string_nil _ _ H) in Eb; inversion Eb; subst b.
      unfold upd at 1. rewrite N.eqb_refl. cbn [N.eqb len length N.of_nat].
      split; [apply ok4; lia |]. intros x. unfold upd.
      cbn [app]. destruct (N.eqb_spec x dst) as [-> | NE].
      * rewrite N.leb_refl, N.sub_diag. cbn [andb]. destruct (N.ltb_spec dst (dst + (0 + 1))); [reflexivity | lia].
      * destruct (N.leb_spec dst x); cbn [andb]; [| reflexivity].
        destruct (N.ltb_spec x (dst + (0 + 1))); [lia | reflexivity].
    + destruct (string_cons _ _ _ _ H) as (N & E & T). rewrite len_cons in *.
      destruct (move1_ok m dst src M1) as (b & Eb & ->); [rewrite E; discriminate |].
      rewrite E in Eb; inversion Eb; subst b.
      assert (U : upd m dst a dst = Some a) by (unfold upd; rewrite N.eqb_refl; reflexivity). rewrite U.
      destruct (N.eqb_spec a 0); [congruence |].
      destruct (IH l (upd m dst a) (dst + 1) (src + 1)) as (m' & [(L & E' & C) | (L & k & E' & C)]).
      * apply string_upd; auto; lia.
      * apply object_upd, object_tl with (n := N.of_nat (S n) + 1); [lia | exact O].
      * lia.
      * exists m'; left. split; [lia |]. split; [rewrite E'; apply ok4; lia |].
        intros x. rewrite C. unfold upd.
        destruct (N.leb_spec (dst + 1) x), (N.ltb_spec x (dst + 1 + N.of_nat n)), (N.leb_spec dst x),
          (N.ltb_spec x (dst + N.of_nat (S n))); cbn [andb]; try lia;
          try (destruct (N.eqb_spec x dst); [lia | reflexivity]).
        -- replace (N.to_nat (x - dst)) with (S (N.to_nat (x - (dst + 1)))) by lia. reflexivity.
        -- destruct (N.eqb_spec x dst); [subst x; rewrite N.sub_diag; reflexivity | lia].
      * exists m'; right. split; [lia |]. exists k. split; [rewrite E'; apply ok4; lia |].
        intros x. rewrite C. unfold upd. cbn [app].
        destruct (N.leb_spec (dst + 1) x), (N.ltb_spec x (dst + 1 + (len l + 1))), (N.leb_spec dst x),
          (N.ltb_spec x (dst + (len l + 1 + 1))); cbn [andb]; try lia;
          try (destruct (N.eqb_spec x dst); [lia | reflexivity]).
        -- replace (N.to_nat (x - dst)) with (S (N.to_nat (x - (dst + 1)))) by lia. reflexivity.
        -- destruct (N.eqb_spec x dst); [subst x; rewrite N.sub_diag; reflexivity | lia].
Qed.
Lemma nth_pre l i : i < len l -> nth (N.to_nat i) (l ++ [0]) 0 = nth (N.to_nat i) l 0.
Proof. intros; apply app_nth1; unfold len in *; lia. Qed.
Lemma string_tail m p l k : string_at m p l -> k <= len l -> string_at m (p + k) (skipn (N.to_nat k) l).
Proof.
  intros [F H] K. split.
  - apply Forall_forall; intros x Hx. rewrite Forall_forall in F. apply F.
    rewrite <- (firstn_skipn (N.to_nat k) l). apply in_or_app; auto.
  - assert (LS : len (skipn (N.to_nat k) l) = len l - k) by (unfold len; rewrite skipn_length; lia).
    intros i Hi. rewrite len_app, LS in Hi. cbn in Hi.
    replace (p + k + i) with (p + (k + i)) by lia.
    rewrite H by (rewrite len_app; cbn; lia). f_equal.
    replace (skipn (N.to_nat k) l ++ [0]) with (skipn (N.to_nat k) (l ++ [0])).
    + rewrite <- (firstn_skipn (N.to_nat k) (l ++ [0])) at 1.
      rewrite app_nth2; rewrite firstn_length, app_length; cbn [length]; [f_equal |]; unfold len in *; lia.
    + rewrite skipn_app. f_equal. replace (N.to_nat k - length l)%nat with 0%nat by (unfold len in *; lia). reflexivity.
Qed.
Lemma strlcpy_ok_ fuel m dst src dsize l : string_at m src l -> object m dst dsize ->
  (dst + dsize <= src \/ src + len l < dst) -> len l < N.of_nat fuel ->
  let k := N.min (len l) (dsize - 1) in
  exists m', strlcpy fuel m dst src dsize = Ok (m', len l) /\
    (forall x, x < dst \/ dst + N.min (k + 1) dsize <= x -> m' x = m x) /\
    (0 < dsize -> string_at m' dst (firstn (N.to_nat k) l)).
Proof.
  intros H O D F k. unfold strlcpy. destruct (N.eqb_spec dsize 0) as [-> | NZ].
  - exists m. rewrite (skip_loop_ok l); auto. split; [apply ok2; lia |]. split; [auto | lia].
  - destruct (strlcpy_loop_ok (N.to_nat (dsize - 1)) l m dst src H) as (m' & [(L & -> & C) | (L & j & -> & C)]).
    + rewrite N2Nat.id. replace (dsize - 1 + 1) with dsize by lia; auto.
    + rewrite N2Nat.id; lia.
    + rewrite N2Nat.id in *. replace k with (dsize - 1) by lia. clear k.
      assert (M1 : m' (dst + (dsize - 1)) <> None).
      { rewrite C. destruct (N.ltb_spec (dst + (dsize - 1)) (dst + (dsize - 1))); [lia |].
        rewrite andb_false_r. apply O; lia. }
      destruct (m' (dst + (dsize - 1))) eqn:EM; [| congruence]. clear M1.
      set (m2 := upd m' (dst + (dsize - 1)) 0).
      assert (C2 : forall x, x < dst \/ dst + dsize <= x -> m2 x = m x).
      { intros x Hx. unfold m2, upd. destruct (N.eqb_spec x (dst + (dsize - 1))); [lia |]. rewrite C.
        destruct (N.leb_spec dst x); cbn [andb]; auto. destruct (N.ltb_spec x (dst + (dsize - 1))); [lia | auto]. }
      assert (S2 : string_at m2 src l).
      { destruct H as [HF HH]; split; auto. intros i Hi. rewrite C2; [auto |].
        rewrite len_app in Hi; cbn in Hi; lia. }
      rewrite (skip_loop_ok (skipn (N.to_nat (dsize - 1)) l)).
      * exists m2. split; [| split].
        -- apply ok2. unfold len; rewrite skipn_length. unfold len in L. lia.
        -- intros x Hx. apply C2. lia.
        -- intros _. split.
           ++ apply Forall_forall; intros x Hx. destruct H as [HF _]. rewrite Forall_forall in HF. apply HF.
              rewrite <- (firstn_skipn (N.to_nat (dsize - 1)) l). apply in_or_app; auto.
           ++ assert (LF : length (firstn (N.to_nat (dsize - 1)) l) = N.to_nat (dsize - 1)) by (rewrite firstn_length; unfold len in *; lia).
              intros i Hi. rewrite len_app in Hi. unfold len in Hi; rewrite LF in Hi. cbn in Hi.
              unfold m2, upd. destruct (N.eqb_spec (dst + i) (dst + (dsize - 1))).
              ** rewrite app_nth2 by lia. rewrite LF. replace (N.to_nat i - N.to_nat (dsize - 1))%nat with 0%nat by lia. reflexivity.
              ** rewrite C. destruct (N.leb_spec dst (dst + i)); [cbn [andb] | lia].
                 destruct (N.ltb_spec (dst + i) (dst + (dsize - 1))); [| lia]. f_equal.
                 rewrite app_nth1 by lia. replace (dst + i - dst) with i by lia.
                 rewrite <- (firstn_skipn (N.to_nat (dsize - 1)) l) at 1. apply app_nth1; lia.
      * apply string_tail; auto.
      * unfold len in *. rewrite skipn_length. lia.
    + rewrite N2Nat.id in *. replace k with (len l) by lia. clear k.
      exists m'. split; [apply ok2; lia |]. split.
      * intros x Hx. rewrite C. destruct (N.leb_spec dst x); cbn [andb]; auto.
        destruct (N.ltb_spec x (dst + (len l + 1))); [lia | auto].
      * intros _. replace (firstn (N.to_nat (len l)) l) with l by (unfold len; rewrite Nat2N.id, firstn_all; reflexivity).
        destruct H as [HF HH]; split; auto. intros i Hi. rewrite C. rewrite len_app in Hi; cbn in Hi.
        destruct (N.leb_spec dst (dst + i)); [cbn [andb] | lia].
        destruct (N.ltb_spec (dst + i) (dst + (len l + 1))); [| lia]. do 2 f_equal. lia.
Qed.
