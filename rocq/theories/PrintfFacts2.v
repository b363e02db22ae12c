(** Proofs about formatted output: numbers. *)
From Coq Require Import NArith Arith Ascii String List Bool Lia ZifyBool ZifyN ZifyNat.
From Verif Require Import Printf SpecPrintf PrintfFacts.
Import ListNotations.
Local Open Scope N_scope.

Lemma digit_dig : forall up d, d < 16 -> dig (digit up d) = Some d /\ in_case up (digit up d).
Proof.
  intros up d H. rewrite <- (N2Nat.id d) in *. remember (N.to_nat d) as n. clear Heqn d.
  do 16 (destruct n as [|n]; [destruct up; (split; [reflexivity|vm_compute; intros [A B]; first [apply A; reflexivity|apply B; reflexivity]])|]). lia.
Qed.
Lemma value_snoc : forall base l acc c, value base acc (l ++ [c]) =
  match value base acc l with Some x => value base x [c] | None => None end.
Proof.
  intros base l. induction l as [|d l IH]; intros acc c; [reflexivity|].
  cbn [app value]. destruct (dig d) as [x|]; [|reflexivity]. destruct (x <? base); [apply IH|reflexivity].
Qed.

Lemma digits_numeral : forall fuel k b v base up, 2 <= base -> base <= 16 -> len b + k <= 32 -> 1 <= k -> v < base ^ k -> k <= N.of_nat fuel ->
  exists r, digits fuel b v base up = Some (b ++ r) /\ numeral up base v (rev r) /\ len r <= k.
Proof.
  induction fuel as [|fuel IH]; intros k b v base up B1 B2 Hb Hk Hv Hf; [lia|].
  cbn [digits]. rewrite bput_ok by lia. set (c := digit up (v mod base)).
  assert (D : v mod base < base) by (apply N.mod_lt; lia).
  destruct (digit_dig up (v mod base)) as [D1 D2]; [lia|]. fold c in D1, D2.
  destruct (N.eq_dec (v / base) 0) as [Z|Z].
  - rewrite Z. cbn [N.eqb negb andb]. exists [c]. split; [reflexivity|]. split; [|unfold len; cbn; lia].
    split; [discriminate|]. split; [constructor; [exact D2|constructor]|]. split.
    + cbn [rev app value]. rewrite D1. replace (v mod base <? base) with true by lia. f_equal. rewrite N.add_0_l.
      rewrite (N.div_mod v base) at 2 by lia. rewrite Z. lia.
    + intro K. cbn [rev app hd] in K. rewrite K. reflexivity.
  - assert (K2 : 2 <= k).
    { destruct (N.eq_dec k 1) as [->|]; [|lia]. exfalso. apply Z. apply N.div_small. rewrite N.pow_1_r in Hv. exact Hv. }
    rewrite len_app. change (len [c]) with 1. unfold NTOA. replace (v / base =? 0) with false by lia. replace (len b + 1 <? 32) with true by lia.
    cbn [negb andb].
    assert (Hv' : v / base < base ^ (k - 1)).
    { apply N.div_lt_upper_bound; [lia|]. replace (base * base ^ (k - 1)) with (base ^ k); [exact Hv|].
      rewrite <- N.pow_succ_r by lia. f_equal. lia. }
    destruct (IH (k - 1) (b ++ [c]) (v / base) base up) as (r & E & (N1 & N2 & N3 & N4) & L); try lia.
    { rewrite len_app. change (len [c]) with 1. lia. }
    exists (c :: r). rewrite E, <- app_assoc. split; [reflexivity|]. split; [|rewrite len_cons; lia].
    cbn [rev]. split; [intro K; apply app_eq_nil in K; destruct K; discriminate|].
    split; [apply Forall_app; split; [exact N2|constructor; [exact D2|constructor]]|]. split.
    + rewrite value_snoc, N3. cbn [value]. rewrite D1. replace (v mod base <? base) with true by lia. f_equal.
      rewrite (N.div_mod v base) at 3 by lia. lia.
    + intro K. exfalso. destruct (rev r) as [|x r']; [contradiction|]. cbn [app hd] in K. specialize (N4 K). rewrite N4 in N3.
      cbn [value] in N3. change (dig (chr "0")) with (Some 0) in N3. cbv iota in N3. replace (0 <? base) with true in N3 by lia.
      injection N3 as N3. clear - N3 Z. lia.
Qed.

Definition sg_of (neg : bool) (f : pfl) : list N :=
  if neg then [chr "-"] else if f_plus f then [chr "+"] else if f_space f then [chr " "] else [].

Lemma zeros_snoc : forall n, zeros n ++ [chr "0"] = zeros (n + 1).
Proof.
  intro n. unfold zeros. replace (N.to_nat (n + 1)) with (S (N.to_nat n)) by lia.
  induction (N.to_nat n) as [|k IH]; [reflexivity|]. cbn [repeat app] in *. f_equal. exact IH.
Qed.
Lemma rev_repeat : forall (c : N) n, rev (repeat c n) = repeat c n.
Proof.
  intros c n. induction n as [|n IH]; [reflexivity|]. cbn [repeat rev]. rewrite IH.
  clear IH. induction n as [|n IH]; [reflexivity|]. cbn [repeat app]. f_equal. exact IH.
Qed.
Lemma rev_zeros : forall n, rev (zeros n) = zeros n.
Proof. intro. apply rev_repeat. Qed.

Lemma guarded_sign : forall b neg f, (len b < 32 \/ sg_of neg f = [] /\ len b <= 32) ->
  guarded b (if neg then Some (chr "-") else if f_plus f then Some (chr "+") else if f_space f then Some (chr " ") else None) = Some (b ++ sg_of neg f).
Proof.
  intros b neg f H. unfold sg_of in *.
  destruct neg; [|destruct (f_plus f); [|destruct (f_space f)]]; cbn [guarded];
    try (rewrite app_nil_r; reflexivity);
    (destruct H as [H|[H _]]; [|discriminate H]; unfold NTOA; replace (len b <? 32) with true by lia; apply bput_ok; exact H).
Qed.
Lemma sg_len : forall neg f, len (sg_of neg f) = if neg || f_plus f || f_space f then 1 else 0.
Proof. intros neg f. unfold sg_of. destruct neg, (f_plus f), (f_space f); reflexivity. Qed.
Lemma sg_rev : forall neg f, rev (sg_of neg f) = sg_of neg f.
Proof. intros neg f. unfold sg_of. destruct neg, (f_plus f), (f_space f); reflexivity. Qed.

Lemma ntoa_exact : forall v neg base prec width f, 2 <= base -> base <= 16 -> v < base ^ 22 -> f_hash f = false ->
  (f_prec f = false -> prec = 0) -> prec <= 31 -> (f_left f = true -> f_prec f = false) -> (f_prec f = true -> f_zero f = false) ->
  (f_zero f = true -> width <= 32) ->
  exists txt, (forall a mx s, ntoa a mx s v neg base prec width f = POk (emit a mx txt s)) /\
    in_format (f_upper f) base v (sg_of neg f) (f_left f) (f_zero f) width (if f_prec f then Some prec else None) txt /\
    len txt <= N.max width 33.
Proof.
  intros v neg base prec width f B1 B2 Hv Hh Hp Hp31 Hl Hz Hw.
  unfold ntoa.
  replace (if v =? 0 then _ else f) with f by (destruct f; cbn in Hh; subst; destruct (v =? 0); reflexivity).
  assert (D : exists b ds, (if negb (f_prec f) || negb (v =? 0) then digits 33 [] v base (f_upper f) else Some []) = Some b /\ len b <= 22 /\
     (match (if f_prec f then Some prec else None) with Some 0 => if v =? 0 then ds = [] else numeral (f_upper f) base v ds | _ => numeral (f_upper f) base v ds end) /\
     zeros (prec - len b) ++ rev b = zeros (prec - len ds) ++ ds /\ (f_left f = true -> ds = rev b)).
  { destruct (f_prec f) eqn:Ep; cbn [negb orb].
    - destruct (N.eqb_spec v 0) as [->|Hv0]; cbn [negb].
      + destruct (N.eq_dec prec 0) as [->|Hp0].
        * exists [], []. repeat split; auto; try discriminate.
        * exists [], [chr "0"]. split; [reflexivity|]. split; [cbn; lia|]. split; [|split].
          -- destruct prec as [|q]; [contradiction|]. split; [discriminate|]. split; [|split; [cbn [value]; change (dig (chr "0")) with (Some 0); cbv iota; replace (0 <? base) with true by lia; f_equal; lia|reflexivity]].
             constructor; [|constructor]. destruct (f_upper f); cbn; intros [A B]; apply A; reflexivity.
          -- change (len []) with 0. change (len [chr "0"]) with 1. rewrite zeros_snoc. cbn [rev]. rewrite app_nil_r. f_equal. lia.
          -- intro K. specialize (Hl K). discriminate Hl.
      + destruct (digits_numeral 33 22 [] v base (f_upper f)) as (r & E & Nr & Lr); try exact Hv; try assumption; try (clear; unfold len; cbn; lia).
        exists r, (rev r). split; [exact E|]. split; [exact Lr|]. split; [destruct prec; exact Nr|]. split; [rewrite len_rev; reflexivity|reflexivity].
    - destruct (digits_numeral 33 22 [] v base (f_upper f)) as (r & E & Nr & Lr); try exact Hv; try assumption; try (clear; unfold len; cbn; lia).
      exists r, (rev r). split; [exact E|]. split; [exact Lr|]. split; [exact Nr|]. split; [rewrite len_rev; reflexivity|reflexivity]. }
  destruct D as (b & ds & -> & Lb & Nds & Eds & Eleft).
  unfold ntoa_format. rewrite Hh.
  pose proof (sg_len neg f) as SL.
  destruct (f_left f) eqn:El.
  - cbn [negb andb]. rewrite guarded_sign by lia. specialize (Hl eq_refl). specialize (Hp Hl). subst prec.
    eexists. split; [intros; rewrite out_rev_emit; reflexivity|]. unfold rev_text. rewrite El. cbn [negb andb app].
    rewrite len_app, rev_app_distr, sg_rev. split.
    + exists ds. split; [exact Nds|]. rewrite Hl. cbn zeta. rewrite N.sub_0_l. cbn [zeros N.to_nat repeat app].
      rewrite (Eleft eq_refl). rewrite len_app, len_rev, <- app_assoc. do 3 f_equal. lia.
    + rewrite !len_app, len_rev, len_blanks. clear - Lb SL. destruct (neg || f_plus f || f_space f); lia.
  - cbn [negb andb]. rewrite zfill_ok by lia. replace (N.min prec 32) with prec by lia.
    set (b1 := b ++ zeros (prec - len b)).
    assert (L1 : len b1 = N.max prec (len b)) by (unfold b1; rewrite len_app, len_zeros; lia).
    assert (R1 : rev b1 = zeros (prec - len ds) ++ ds) by (unfold b1; rewrite rev_app_distr, rev_zeros; exact Eds).
    assert (L1' : len (zeros (prec - len ds) ++ ds) = len b1) by (rewrite <- R1, len_rev; reflexivity).
    assert (XS : match (if f_prec f then Some prec else None) with Some p => p | None => 0 end = prec)
      by (destruct (f_prec f); [reflexivity|symmetry; apply Hp; reflexivity]).
    clearbody b1. destruct (f_zero f) eqn:Ez.
    + assert (Pf : f_prec f = false) by (destruct (f_prec f); [specialize (Hz eq_refl); discriminate Hz|reflexivity]).
      specialize (Hw eq_refl). rewrite andb_true_r. rewrite Pf in *. rewrite (Hp eq_refl) in *.
      set (w := if negb (width =? 0) && _ then width - 1 else width).
      assert (Ew : w = width - len (sg_of neg f)) by (unfold w; rewrite SL; destruct (N.eqb_spec width 0), (neg || f_plus f || f_space f); cbn [negb andb]; lia).
      clearbody w. rewrite zfill_ok by lia.
      rewrite guarded_sign.
      2:{ rewrite len_app, len_zeros. rewrite SL in Ew. unfold sg_of. destruct neg; [left|destruct (f_plus f); [left|destruct (f_space f); [left|right]]]; cbn [orb] in Ew; try lia.
          split; [reflexivity|lia]. }
      eexists. split; [intros; rewrite out_rev_emit; reflexivity|]. unfold rev_text. rewrite El, Ez. cbn [negb andb app]. rewrite app_nil_r.
      rewrite !rev_app_distr, sg_rev, rev_zeros, R1. split.
      * exists ds. split; [exact Nds|]. cbn zeta. cbn [andb]. rewrite len_app, L1'. do 2 f_equal. f_equal. lia.
      * rewrite !len_app. rewrite len_app in L1'. rewrite !len_zeros. rewrite len_zeros in L1'. clear - Lb SL L1 L1' Hw Ew. destruct (neg || f_plus f || f_space f); lia.
    + rewrite !andb_false_r, !andb_false_l. rewrite guarded_sign by (left; lia).
      eexists. split; [intros; rewrite out_rev_emit; reflexivity|]. unfold rev_text. rewrite El, Ez. cbn [negb andb app]. rewrite app_nil_r.
      rewrite !rev_app_distr, sg_rev, R1. split.
      * exists ds. split; [exact Nds|]. cbn zeta. rewrite XS. rewrite !len_app. rewrite len_app in L1'. cbn [andb]. cbv iota. f_equal. f_equal. clear - L1'. lia.
      * rewrite !len_app, len_blanks. rewrite len_app in L1'. rewrite !len_zeros in *. clear - Lb SL L1 L1' Hp31. destruct (neg || f_plus f || f_space f); lia.
Qed.
