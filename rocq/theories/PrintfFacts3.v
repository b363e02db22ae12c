(** Proofs about formatted output: integers with flags, width and precision; the log of
    realm calls. *)
From Coq Require Import NArith Arith Ascii String List Bool Lia ZifyBool ZifyN ZifyNat.
From Verif Require Import Printf SpecPrintf PrintfFacts PrintfFacts2.
Import ListNotations.
Local Open Scope N_scope.

Lemma vloop_chr : forall n a mx s c fmt va, (c =? chr "%") = false -> vloop (S n) a mx s (c :: fmt) va = vloop n a mx (put a mx c s) fmt va.
Proof. intros n a mx s c fmt va H. cbn [vloop]. rewrite H. reflexivity. Qed.
Lemma vloop_dir : forall n a mx s fmt va fmt1 f1 fmt2 f2 width va2 fmt3 f3 prec va3 c fmt4 f4 s' va',
  p_flags fmt fl0 = (fmt1, f1) -> p_width fmt1 f1 va = POk (fmt2, f2, width, va2) ->
  p_precision fmt2 f2 va2 = POk (fmt3, f3, prec, va3) -> p_length fmt3 f3 = (c :: fmt4, f4) ->
  directive a mx s c f4 width prec va3 = POk (s', va') ->
  vloop (S n) a mx s (chr "%" :: fmt) va = vloop n a mx s' fmt4 va'.
Proof. intros. cbn [vloop]. change (negb (chr "%" =? chr "%")) with false. cbv iota. rewrite H, H0, H1, H2, H3. reflexivity. Qed.
Lemma vloop_nil : forall n a mx s va, vloop n a mx s [] va = POk s.
Proof. intros [|n]; reflexivity. Qed.

Lemma p_flags_ok : forall fl r z l p s, Forall (fun x => In x (str "0-+ ")) fl ->
  p_flags (fl ++ chr "*" :: r) (mkFl z l p s false false false false false false false) =
  (chr "*" :: r, mkFl (z || has_flag "0" fl) (l || has_flag "-" fl) (p || has_flag "+" fl) (s || has_flag " " fl) false false false false false false false).
Proof.
  intros fl r. induction fl as [|x fl IH]; intros z l p s H.
  - cbn. rewrite !orb_false_r. reflexivity.
  - inversion H as [|? ? Hx Hfl]; subst.
    assert (O : forall b, b || true = true) by (intros []; reflexivity).
    destruct Hx as [<-|[<-|[<-|[<-|[]]]]]; cbn [app p_flags has_flag existsb]; cbn [f_zero f_left f_plus f_space f_hash].
    all: change (N_of_ascii "0") with 48; change (N_of_ascii "-") with 45; change (N_of_ascii "+") with 43; change (N_of_ascii " ") with 32.
    all: change (chr "0") with 48; change (chr "-") with 45; change (chr "+") with 43; change (chr " ") with 32; change (chr "#") with 35.
    all: cbn [N.eqb Pos.eqb]; rewrite IH by assumption; unfold has_flag; cbn [existsb]; cbn [orb].
    all: change (chr "0") with 48; change (chr "-") with 45; change (chr "+") with 43; change (chr " ") with 32; cbn [N.eqb Pos.eqb orb]; rewrite ?O; reflexivity.
Qed.

Lemma directive_num : forall c signed base upper, In (c, (signed, base, upper)) conversions -> forall a mx s f width prec v va,
  f_hash f = false -> f_upper f = false ->
  let f' := mkFl (if f_prec f then false else f_zero f) (f_left f) (signed && f_plus f) (signed && f_space f) false upper
                 (f_char f) (f_short f) (f_long f) (f_llong f) (f_prec f) in
  directive a mx s c f width prec (ANum v :: va) =
  match (if signed then ntoa a mx s (snd (signed_arg f' v)) (fst (signed_arg f' v)) base prec width f'
         else ntoa a mx s (unsigned_arg f' v) false base prec width f') with POk s => POk (s, va) | PUb => PUb | POob => POob end.
Proof.
  intros c signed base upper H a mx s f width prec v va Hh Hu f'. subst f'. unfold directive. rewrite Hh, Hu.
  destruct H as [H|[H|[H|[H|[H|[H|[]]]]]]]; injection H as <- <- <- <-; try reflexivity.
  - match goal with |- context [let '(_, _) := signed_arg ?f v in _] => change (signed_arg f v) with (signed_arg (mkFl (if f_prec f then false else f_zero f) (f_left f) (f_plus f) (f_space f) false false (f_char f) (f_short f) (f_long f) (f_llong f) (f_prec f)) v) end.
    destruct (signed_arg _ v) as [neg b]. reflexivity.
  - match goal with |- context [let '(_, _) := signed_arg ?f v in _] => change (signed_arg f v) with (signed_arg (mkFl (if f_prec f then false else f_zero f) (f_left f) (f_plus f) (f_space f) false false (f_char f) (f_short f) (f_long f) (f_llong f) (f_prec f)) v) end.
    destruct (signed_arg _ v) as [neg b]. reflexivity.
Qed.

Lemma conv_base : forall c signed base upper, In (c, (signed, base, upper)) conversions -> 2 <= base /\ base <= 16 /\ 2 ^ 64 <= base ^ 22.
Proof.
  intros c signed base upper H. destruct H as [H|[H|[H|[H|[H|[H|[]]]]]]]; injection H as <- <- <- <-; (split; [|split]); apply N.leb_le; vm_compute; reflexivity.
Qed.

Lemma printf_int_ok : forall fl w prec v c signed base upper m a mx,
  In (c, (signed, base, upper)) conversions -> Forall (fun x => In x (str "0-+ ")) fl ->
  w < 2 ^ 32 -> v < 2 ^ 64 -> mx < 2 ^ 64 ->
  match prec with Some p => p <= 31 | None => True end ->
  (has_flag "-" fl || arg_left w = true -> prec = None) -> (has_flag "0" fl = true -> arg_width w <= 32) ->
  exists m' txt,
    snprintf m a mx (str "%" ++ fl ++ str "*" ++ (match prec with Some _ => str ".*" | None => [] end) ++ str "l" ++ [c])
             (ANum w :: (match prec with Some p => [ANum p] | None => [] end) ++ [ANum v]) = POk (m', len txt) /\
    wrote m m' a mx txt /\
    in_format upper base (abs64 signed v) (sign signed (sgn64 signed v) (has_flag "+" fl) (has_flag " " fl))
              (has_flag "-" fl || arg_left w) (has_flag "0" fl) (arg_width w) prec txt.
Proof.
  intros fl w prec v c signed base upper m a mx Hc Hfl Hw Hv Hmx Hp Hleft Hzero.
  destruct (conv_base _ _ _ _ Hc) as (B1 & B2 & B3).
  set (pn := match prec with Some p => p | None => 0 end).
  set (hp := match prec with Some _ => true | None => false end).
  assert (Hw2 : arg_width w <= 2 ^ 31) by (unfold arg_width, arg_left; destruct (N.leb_spec (2 ^ 31) w); clear - H Hw; lia).
  set (f := mkFl (has_flag "0" fl) (has_flag "-" fl || arg_left w) (has_flag "+" fl) (has_flag " " fl) false false false false true false hp).
  set (f' := mkFl (if f_prec f then false else f_zero f) (f_left f) (signed && f_plus f) (signed && f_space f) false upper
                 (f_char f) (f_short f) (f_long f) (f_llong f) (f_prec f)).
  assert (SA : signed_arg f' v = (2 ^ 63 <=? v, if 2 ^ 63 <=? v then 2 ^ 64 - v else v)).
  { unfold signed_arg, f', f. cbn [f_long f_llong orb]. rewrite (N.mod_small v (2 ^ 64)) by exact Hv.
    change (64 - 1) with 63. destruct (2 ^ 63 <=? v); reflexivity. }
  assert (UA : unsigned_arg f' v = v).
  { unfold unsigned_arg, f', f. cbn [f_long f_llong orb]. apply N.mod_small. exact Hv. }
  destruct (ntoa_exact (abs64 signed v) (sgn64 signed v) base pn (arg_width w) f') as (txt & T1 & T2 & T3); try assumption.
  - eapply N.lt_le_trans; [|exact B3]. unfold abs64, sgn64. destruct signed; cbn [andb]; [|exact Hv].
    destruct (2 ^ 63 <=? v) eqn:E; [|exact Hv]. apply N.leb_le in E. apply N.sub_lt; [apply N.lt_le_incl; exact Hv|]. eapply N.lt_le_trans; [|exact E]. reflexivity.
  - reflexivity.
  - unfold f', f, pn, hp. cbn. destruct prec; [discriminate|reflexivity].
  - unfold pn. destruct prec; [exact Hp|discriminate].
  - unfold f', f, hp. cbn. intro K. rewrite (Hleft K). reflexivity.
  - unfold f', f, hp. cbn. intro K. rewrite K. reflexivity.
  - unfold f', f, hp. cbn. destruct prec; [discriminate|exact Hzero].
  - assert (D : forall s, directive a mx s c f (arg_width w) pn [ANum v] = POk (emit a mx txt s, [])).
    { intro s. rewrite (directive_num _ _ _ _ Hc a mx s f (arg_width w) pn v []) by reflexivity. fold f'. cbv zeta.
      rewrite SA, UA. cbn [fst snd]. specialize (T1 a mx s). unfold abs64, sgn64 in T1. destruct signed; cbn [andb] in T1; rewrite T1; reflexivity. }
    assert (V : forall n, vloop (S n) a mx (mkO m 0) (str "%" ++ fl ++ str "*" ++ (match prec with Some _ => str ".*" | None => [] end) ++ str "l" ++ [c])
             (ANum w :: (match prec with Some p => [ANum p] | None => [] end) ++ [ANum v]) = POk (emit a mx txt (mkO m 0))).
    { intro n. change (str "%" ++ fl ++ str "*" ++ match prec with Some _ => str ".*" | None => [] end ++ str "l" ++ [c])
        with (chr "%" :: (fl ++ chr "*" :: (match prec with Some _ => str ".*" | None => [] end ++ str "l" ++ [c]))).
      rewrite (vloop_dir n a mx (mkO m 0) _ _ (chr "*" :: (match prec with Some _ => str ".*" | None => [] end ++ str "l" ++ [c])) (mkFl (has_flag "0" fl) (has_flag "-" fl) (has_flag "+" fl) (has_flag " " fl) false false false false false false false)
         (match prec with Some _ => str ".*" | None => [] end ++ str "l" ++ [c])
         (mkFl (has_flag "0" fl) (has_flag "-" fl || arg_left w) (has_flag "+" fl) (has_flag " " fl) false false false false false false false) (arg_width w)
         (match prec with Some p => [ANum p] | None => [] end ++ [ANum v])
         (str "l" ++ [c]) (mkFl (has_flag "0" fl) (has_flag "-" fl || arg_left w) (has_flag "+" fl) (has_flag " " fl) false false false false false false hp) pn [ANum v]
         c [] f (emit a mx txt (mkO m 0)) []).
      - apply vloop_nil.
      - unfold fl0. rewrite p_flags_ok by exact Hfl. reflexivity.
      - unfold p_width. change (is_digit (chr "*")) with false. change (chr "*" =? chr "*") with true. cbv iota.
        rewrite (N.mod_small w (2 ^ 32)) by exact Hw. unfold arg_width. change (2 ^ 31 <=? w) with (arg_left w). destruct (arg_left w).
        + rewrite orb_true_r. reflexivity.
        + rewrite orb_false_r. reflexivity.
      - unfold pn, hp. destruct prec as [p|]; [|reflexivity]. cbn [app].
        change (str ".*" ++ str "l" ++ [c]) with (chr "." :: chr "*" :: str "l" ++ [c]).
        unfold p_precision. change (chr "." =? chr ".") with true. change (is_digit (chr "*")) with false. change (chr "*" =? chr "*") with true. cbv iota zeta.
        rewrite (N.mod_small p (2 ^ 32)) by (clear - Hp; lia). replace (2 ^ 31 <=? p) with false by (clear - Hp; lia). reflexivity.
      - change (str "l" ++ [c]) with [chr "l"; c]. unfold p_length. change (chr "l" =? chr "l") with true. cbv iota.
        replace (c =? chr "l") with false; [reflexivity|].
        clear - Hc. destruct Hc as [H|[H|[H|[H|[H|[H|[]]]]]]]; injection H as <- <- <- <-; reflexivity.
      - apply D. }
    destruct (snprintf_wrote m a mx (str "%" ++ fl ++ str "*" ++ (match prec with Some _ => str ".*" | None => [] end) ++ str "l" ++ [c])
      (ANum w :: (match prec with Some p => [ANum p] | None => [] end) ++ [ANum v]) txt Hmx) as (m' & E & Wr).
    { cbn [str app List.length]. cbn [str app] in V. apply V. }
    exists m', txt.
    rewrite N.mod_small in E by (clear - T3 Hw2; lia). split; [exact E|]. split; [exact Wr|].
    assert (Sg : sg_of (sgn64 signed v) f' = sign signed (sgn64 signed v) (has_flag "+" fl) (has_flag " " fl)).
    { unfold sg_of, sign, f', f, sgn64. cbn [f_plus f_space]. destruct signed; reflexivity. }
    rewrite Sg in T2. clear - T2. unfold f', f, hp in T2. cbn [f_upper f_left f_zero f_prec] in T2.
    destruct prec as [p|]; [|exact T2]. destruct T2 as (ds & X1 & X2). exists ds. split; [exact X1|].
    cbn zeta in X2 |- *. cbn [andb] in X2. rewrite andb_false_r. exact X2.
Qed.

(** Text in memory *)
Definition holds (m : mem) (a : N) (t : list N) : Prop := forall i, i < len t -> m (a + i) = nth (N.to_nat i) t 0.
Lemma holds_app : forall m a t1 t2, holds m a t1 -> holds m (a + len t1) t2 -> holds m a (t1 ++ t2).
Proof.
  intros m a t1 t2 H1 H2 i Hi. rewrite len_app in Hi. destruct (N.lt_ge_cases i (len t1)) as [L|L].
  - rewrite (H1 i L). rewrite app_nth1; [reflexivity|]. unfold len in L. lia.
  - rewrite app_nth2 by (unfold len in L; lia). replace (a + i) with (a + len t1 + (i - len t1)) by lia.
    rewrite H2 by lia. f_equal. unfold len. lia.
Qed.
Lemma holds_ext : forall m m' a t, holds m a t -> (forall x, a <= x < a + len t -> m' x = m x) -> holds m' a t.
Proof. intros m m' a t H E i Hi. rewrite E by lia. apply H. exact Hi. Qed.
Lemma nth_repeat_lt : forall (c d : N) n k, (k < n)%nat -> nth k (repeat c n) d = c.
Proof. intros c d n. induction n as [|n IH]; intros [|k] H; [lia|lia|reflexivity|]. cbn. apply IH. lia. Qed.
Lemma holds_blanks : forall m a n k, holds (memset m a 0x20 n) a (blanks k) \/ n < k.
Proof.
  intros m a n k. destruct (N.lt_ge_cases n k) as [L|L]; [right; exact L|left]. intros i Hi. rewrite len_blanks in Hi. unfold memset.
  replace ((a <=? a + i) && (a + i <? a + n)) with true by lia.
  unfold blanks. symmetry. change 32 with (chr " "). apply nth_repeat_lt. lia.
Qed.
Lemma text_holds : forall t m a n, holds m a t -> Forall (fun c => c <> 0) t -> m (a + len t) = 0 -> (List.length t < n)%nat -> text n m a = t.
Proof.
  induction t as [|c t IH]; intros m a n H F Z Hn.
  - destruct n as [|n]; [lia|]. cbn [text]. unfold len in Z. cbn in Z. rewrite N.add_0_r in Z. rewrite Z. reflexivity.
  - destruct n as [|n]; [lia|]. cbn [text]. assert (H0 : m a = c).
    { specialize (H 0). rewrite N.add_0_r in H. apply H. rewrite len_cons. lia. }
    inversion F as [|c' t' Fc Ft]. clear F H1 H2. rewrite H0. replace (c =? 0) with false by lia. f_equal.
    apply IH; [|exact Ft| |cbn in Hn; lia].
    + intros i Hi. specialize (H (i + 1)). rewrite len_cons in H. replace (a + 1 + i) with (a + (i + 1)) by lia. rewrite H by lia.
      replace (N.to_nat (i + 1)) with (S (N.to_nat i)) by lia. reflexivity.
    + rewrite len_cons in Z. rewrite <- Z. f_equal. lia.
Qed.
Lemma wrote_fits : forall m m' a mx cs, wrote m m' a mx cs -> len cs < mx -> holds m' a cs /\ m' (a + len cs) = 0 /\ (forall x, x < a \/ a + mx <= x -> m' x = m x).
Proof.
  intros m m' a mx cs [O I] L. destruct I as [I1 I2]; [lia|]. rewrite N.min_l in I1, I2 by lia. split; [exact I1|]. split; [exact I2|exact O].
Qed.
