(** Proofs about formatted output. *)
From Coq Require Import NArith Arith Ascii String List Bool Lia ZifyBool ZifyN ZifyNat.
From Verif Require Import Printf SpecPrintf.
Import ListNotations.
Local Open Scope N_scope.

Definition emit (a mx : N) (cs : list N) (s : ost) : ost := fold_left (fun s c => put a mx c s) cs s.

Lemma emit_app : forall a mx c1 c2 s, emit a mx (c1 ++ c2) s = emit a mx c2 (emit a mx c1 s).
Proof. intros. unfold emit. apply fold_left_app. Qed.
Lemma emit_idx : forall a mx cs s, o_idx (emit a mx cs s) = o_idx s + len cs.
Proof.
  intros a mx cs. induction cs as [|c cs IH]; intro s; [unfold len; cbn; lia|].
  change (emit a mx (c :: cs) s) with (emit a mx cs (put a mx c s)). rewrite IH. unfold len. cbn [put o_idx List.length]. lia.
Qed.
Lemma len_app : forall b c, len (b ++ c) = len b + len c.
Proof. intros. unfold len. rewrite app_length. lia. Qed.
Lemma len_cons : forall c b, len (c :: b) = 1 + len b.
Proof. intros. unfold len. cbn [List.length]. lia. Qed.
Lemma len_rev : forall b, len (rev b) = len b.
Proof. intros. unfold len. rewrite rev_length. reflexivity. Qed.
Lemma len_repeat : forall c n, len (repeat c (N.to_nat n)) = n.
Proof. intros. unfold len. rewrite repeat_length. lia. Qed.

Lemma pad_emit : forall a mx n s, pad a mx n s = emit a mx (blanks n) s.
Proof.
  intros a mx n s. unfold pad, blanks. rewrite N2Nat.inj_iter. generalize (N.to_nat n). clear n. intro n. revert s.
  induction n as [|n IH]; intro s; [reflexivity|].
  cbn [repeat]. change (emit a mx (chr " " :: repeat (chr " ") n) s) with (emit a mx (repeat (chr " ") n) (put a mx (chr " ") s)).
  rewrite <- IH. clear IH. revert s. induction n as [|n IH]; intro s; [reflexivity|].
  change (put a mx (chr " ") (Nat.iter (S n) (put a mx (chr " ")) s) = put a mx (chr " ") (Nat.iter n (put a mx (chr " ")) (put a mx (chr " ") s))).
  f_equal. apply IH.
Qed.

Definition rev_text (b : list N) (width : N) (f : pfl) : list N :=
  (if negb (f_left f) && negb (f_zero f) then blanks (width - len b) else []) ++ rev b ++
  (if f_left f then blanks (width - len b) else []).
Lemma out_rev_emit : forall a mx s b width f, out_rev a mx s b width f = emit a mx (rev_text b width f) s.
Proof.
  intros a mx s b width f. unfold out_rev, rev_text. rewrite !emit_app.
  destruct (f_left f); cbn [negb andb].
  - change (emit a mx [] s) with s. rewrite pad_emit.
    change (fold_left (fun s c => put a mx c s) (rev b) s) with (emit a mx (rev b) s).
    rewrite emit_idx, len_rev. replace (o_idx s + len b - o_idx s) with (len b) by lia. reflexivity.
  - destruct (f_zero f); cbn [negb]; [reflexivity|]. rewrite pad_emit. reflexivity.
Qed.

(** The local buffer *)
Lemma bput_ok : forall b c, len b < 32 -> bput b c = Some (b ++ [c]).
Proof. intros b c H. unfold bput, NTOA. replace (len b <? 32) with true by lia. reflexivity. Qed.
Lemma zfill_ok : forall fuel b u, len b <= 32 -> 33 <= N.of_nat fuel + len b ->
  zfill fuel b u = Some (b ++ zeros (N.min u 32 - len b)).
Proof.
  induction fuel as [|fuel IH]; intros b u Hb Hf.
  - exfalso. lia.
  - cbn [zfill]. unfold NTOA. destruct ((len b <? u) && (len b <? 32)) eqn:E.
    + rewrite bput_ok by lia. rewrite IH by (rewrite len_app; unfold len at 2; cbn; lia).
      rewrite len_app. change (len [chr "0"]) with 1. rewrite <- app_assoc. f_equal. f_equal.
      unfold zeros. replace (N.to_nat (N.min u 32 - len b)) with (S (N.to_nat (N.min u 32 - (len b + 1)))) by lia. reflexivity.
    + replace (N.min u 32 - len b) with 0 by lia. cbn. rewrite app_nil_r. reflexivity.
Qed.
Lemma len_zeros : forall n, len (zeros n) = n.
Proof. intros. apply len_repeat. Qed.
Lemma len_blanks : forall n, len (blanks n) = n.
Proof. intros. apply len_repeat. Qed.
Lemma guarded_ok : forall b c, len b <= 32 -> exists b', guarded b c = Some b' /\ len b' <= 32 /\
  (len b < 32 -> b' = b ++ match c with Some c => [c] | None => [] end).
Proof.
  intros b [c|] H; unfold guarded, NTOA.
  - destruct (len b <? 32) eqn:E.
    + rewrite bput_ok by lia. eexists. split; [reflexivity|]. rewrite len_app. change (len [c]) with 1. split; [lia|auto].
    + exists b. split; [reflexivity|]. split; [assumption|]. intro. exfalso. lia.
  - exists b. split; [reflexivity|]. split; [assumption|]. intros _. rewrite app_nil_r. reflexivity.
Qed.
Lemma len_removelast : forall b, len (removelast b) <= len b.
Proof.
  intro b. destruct b as [|c b]; [cbn; lia|].
  assert (H : c :: b <> []) by discriminate. pose proof (app_removelast_last 0 H) as E.
  rewrite E at 2. rewrite len_app. lia.
Qed.
Lemma digits_ok : forall fuel b v base up, len b < 32 -> exists b', digits fuel b v base up = Some b' /\ len b' <= 32.
Proof.
  induction fuel as [|fuel IH]; intros b v base up H; cbn [digits]; [eexists; split; [reflexivity|lia]|].
  rewrite bput_ok by assumption. unfold NTOA. rewrite len_app. change (len [_]) with 1.
  destruct (negb (v / base =? 0) && (len b + 1 <? 32)) eqn:E.
  - apply IH. rewrite len_app. change (len [_]) with 1. lia.
  - eexists. split; [reflexivity|]. rewrite len_app. change (len [_]) with 1. lia.
Qed.

Lemma ntoa_format_emit : forall b neg base prec width f, len b <= 32 ->
  exists cs, forall a mx s, ntoa_format a mx s b neg base prec width f = POk (emit a mx cs s).
Proof.
  intros b neg base prec width f Hb. unfold ntoa_format.
  set (w := if negb (f_left f) && _ && _ && _ then width - 1 else width). clearbody w.
  assert (Z : exists b1, (if f_left f then Some b else match zfill 33 b prec with
         | Some b => if f_zero f then zfill 33 b w else Some b | None => None end) = Some b1 /\ len b1 <= 32).
  { destruct (f_left f); [eauto|]. rewrite zfill_ok by lia.
    assert (L : len (b ++ zeros (N.min prec 32 - len b)) <= 32) by (rewrite len_app, len_zeros; lia).
    destruct (f_zero f); [|eauto]. rewrite zfill_ok by lia.
    eexists. split; [reflexivity|]. rewrite len_app, len_zeros. lia. }
  destruct Z as (b1 & -> & L1).
  set (h := if f_hash f then _ else Some b1).
  assert (Z : exists b2, h = Some b2 /\ len b2 <= 32).
  { unfold h. destruct (f_hash f); [|eauto].
    cbv zeta. match goal with |- context [guarded (if ?x then ?y else b1) _] => set (b' := if x then y else b1) end. assert (L' : len b' <= 32).
    { unfold b'. destruct (_ && _ && _); [|assumption]. destruct (_ && _).
      - pose proof (len_removelast (removelast b1)). pose proof (len_removelast b1). lia.
      - pose proof (len_removelast b1). lia. }
    clearbody b'. match goal with |- context [guarded b' ?c] => destruct (guarded_ok b' c L') as (b3 & -> & L3 & _) end.
    destruct (guarded_ok b3 (Some (chr "0")) L3) as (b4 & -> & L4 & _). eauto. }
  destruct Z as (b2 & -> & L2).
  match goal with |- context [guarded b2 ?c] => destruct (guarded_ok b2 c L2) as (b3 & -> & L3 & _) end.
  exists (rev_text b3 w f). intros. rewrite out_rev_emit. reflexivity.
Qed.
Lemma ntoa_emit : forall v neg base prec width f,
  exists cs, forall a mx s, ntoa a mx s v neg base prec width f = POk (emit a mx cs s).
Proof.
  intros v neg base prec width f. unfold ntoa.
  set (f' := if v =? 0 then _ else f). clearbody f'.
  assert (Z : exists b, (if negb (f_prec f') || negb (v =? 0) then digits 33 [] v base (f_upper f') else Some []) = Some b /\ len b <= 32).
  { destruct (_ || _); [apply digits_ok; reflexivity|exists []; split; [reflexivity|discriminate]]. }
  destruct Z as (b & -> & L). apply ntoa_format_emit. exact L.
Qed.

Lemma directive_emit : forall c f width prec va,
  (exists cs va', forall a mx s, directive a mx s c f width prec va = POk (emit a mx cs s, va')) \/
  (forall a mx s, directive a mx s c f width prec va = PUb).
Proof.
  intros c f width prec va. unfold directive.
  destruct (_ || _ || _ || _ || _ || _ || _) eqn:E.
  - destruct va as [|[v|p] va]; [right; reflexivity| |right; reflexivity]. left. cbv zeta.
    destruct ((c =? chr "i") || (c =? chr "d")) eqn:Sg.
    + destruct (signed_arg _ v) as [neg b].
      match goal with |- context [ntoa _ _ _ b neg ?base prec width ?f] => destruct (ntoa_emit b neg base prec width f) as (cs & H) end.
      exists cs, va. intros. rewrite H. reflexivity.
    + match goal with |- context [ntoa _ _ _ ?b false ?base prec width ?f] => destruct (ntoa_emit b false base prec width f) as (cs & H) end.
      exists cs, va. intros. rewrite H. reflexivity.
  - destruct (c =? chr "c").
    { destruct va as [|[v|p] va]; [right; reflexivity| |right; reflexivity]. left. cbv zeta.
      exists ((if f_left f then [] else blanks (width - 1)) ++ [v mod 2 ^ 8] ++ (if f_left f then blanks (width - 1) else [])), va.
      intros. rewrite !emit_app. destruct (f_left f); rewrite !pad_emit; reflexivity. }
    destruct (c =? chr "s").
    { destruct va as [|[v|p] va]; [right; reflexivity|right; reflexivity|]. left. cbv zeta.
      set (q := if f_prec f then _ else p). clearbody q.
      exists ((if f_left f then [] else blanks (width - len q)) ++ q ++ (if f_left f then blanks (width - len q) else [])), va.
      intros. rewrite !emit_app. destruct (f_left f); rewrite !pad_emit; reflexivity. }
    destruct (c =? chr "p").
    { destruct va as [|[v|p] va]; [right; reflexivity| |right; reflexivity]. left. cbv zeta.
      match goal with |- context [ntoa _ _ _ ?b false 16 prec 16 ?f] => destruct (ntoa_emit b false 16 prec 16 f) as (cs & H) end.
      exists cs, va. intros. rewrite H. reflexivity. }
    left. exists [c], va. reflexivity.
Qed.

Lemma p_width_ok : forall fmt f va, p_width fmt f va <> POob.
Proof.
  intros [|c fmt] f va; cbn; [discriminate|]. destruct (is_digit c); [destruct (atoi _ _); discriminate|].
  destruct (c =? _); [|discriminate]. destruct va as [|[v|]]; try discriminate. destruct (_ <=? _); discriminate.
Qed.
Lemma p_precision_ok : forall fmt f va, p_precision fmt f va <> POob.
Proof.
  intros [|c fmt] f va; cbn; [discriminate|]. destruct (c =? _); [|discriminate]. destruct fmt as [|d fmt]; [discriminate|].
  destruct (is_digit d); [destruct (atoi _ _); discriminate|]. destruct (d =? _); [|discriminate].
  destruct va as [|[v|]]; discriminate.
Qed.

Lemma vloop_emit : forall fuel fmt va,
  (exists cs, forall a mx s, vloop fuel a mx s fmt va = POk (emit a mx cs s)) \/
  (forall a mx s, vloop fuel a mx s fmt va = PUb).
Proof.
  induction fuel as [|fuel IH]; intros fmt va; [left; exists []; reflexivity|].
  destruct fmt as [|c fmt]; [left; exists []; reflexivity|]. cbn [vloop].
  destruct (negb (c =? chr "%")).
  - destruct (IH fmt va) as [(cs & H)|H]; [left|right].
    + exists (c :: cs). intros. rewrite H. reflexivity.
    + intros. apply H.
  - destruct (p_flags fmt fl0) as [fmt1 f1].
    destruct (p_width fmt1 f1 va) as [[[[fmt2 f2] width] va2]| |] eqn:Ew; [|right; reflexivity|exfalso; exact (p_width_ok _ _ _ Ew)].
    destruct (p_precision fmt2 f2 va2) as [[[[fmt3 f3] prec] va3]| |] eqn:Ep; [|right; reflexivity|exfalso; exact (p_precision_ok _ _ _ Ep)].
    destruct (p_length fmt3 f3) as [fmt4 f4]. destruct fmt4 as [|d fmt4]; [right; reflexivity|].
    destruct (directive_emit d f4 width prec va3) as [(cs & va4 & H)|H].
    + destruct (IH fmt4 va4) as [(cs' & H')|H']; [left|right].
      * exists (cs ++ cs'). intros. rewrite H, H', emit_app. reflexivity.
      * intros. rewrite H. apply H'.
    + right. intros. rewrite H. reflexivity.
Qed.

(** What is in memory *)
Lemma emit_mem : forall a mx cs s,
  (forall x, x < a + o_idx s \/ a + mx <= x -> o_mem (emit a mx cs s) x = o_mem s x) /\
  (forall i, i < len cs -> o_idx s + i < mx -> o_mem (emit a mx cs s) (a + o_idx s + i) = nth (N.to_nat i) cs 0).
Proof.
  intros a mx cs. induction cs as [|c cs IH]; intro s.
  - split; [reflexivity|]. intros i Hi. unfold len in Hi. cbn in Hi. lia.
  - change (emit a mx (c :: cs) s) with (emit a mx cs (put a mx c s)). destruct (IH (put a mx c s)) as [A B]. split.
    + intros x Hx. rewrite A by (cbn [put o_idx]; lia). unfold put. cbn [o_mem]. destruct (N.ltb_spec (o_idx s) mx) as [E|E]; [|reflexivity].
      unfold mput. destruct (N.eqb_spec x (a + o_idx s)); [lia|reflexivity].
    + intros i Hi Hm. rewrite len_cons in Hi. destruct (N.eq_dec i 0) as [->|Hi0].
      * rewrite A by (cbn [put o_idx]; lia). unfold put. cbn [o_mem]. replace (o_idx s <? mx) with true by lia.
        unfold mput. replace (a + o_idx s + 0 =? a + o_idx s) with true by lia. reflexivity.
      * replace (a + o_idx s + i) with (a + o_idx (put a mx c s) + (i - 1)) by (cbn [put o_idx]; lia).
        rewrite B by (cbn [put o_idx]; lia).
        replace (N.to_nat i) with (S (N.to_nat (i - 1))) by lia. reflexivity.
Qed.
Lemma snprintf_wrote : forall m a mx fmt va cs, mx < 2 ^ 64 ->
  vloop (List.length fmt) a mx (mkO m 0) fmt va = POk (emit a mx cs (mkO m 0)) ->
  exists m', snprintf m a mx fmt va = POk (m', len cs mod 2 ^ 32) /\ wrote m m' a mx cs.
Proof.
  intros m a mx fmt va cs Hm H. unfold snprintf. rewrite H, emit_idx. cbn [o_idx]. rewrite N.add_0_l.
  eexists. split; [reflexivity|].
  destruct (emit_mem a mx cs (mkO m 0)) as [A B]. cbn [o_idx o_mem] in A, B.
  set (k := if len cs <? mx then len cs else (mx + (2 ^ 64 - 1)) mod 2 ^ 64).
  assert (K : 0 < mx -> k = N.min (len cs) (mx - 1)).
  { intro P. unfold k. destruct (N.ltb_spec (len cs) mx); [lia|].
    replace (mx + (2 ^ 64 - 1)) with (mx - 1 + 1 * 2 ^ 64) by lia. rewrite N.mod_add by discriminate. rewrite N.mod_small by lia. lia. }
  split.
  - intros x Hx. destruct (N.ltb_spec k mx) as [L|L]; [unfold mput; destruct (N.eqb_spec x (a + k)); [lia|]|]; apply A; lia.
  - intros P. specialize (K P). cbn zeta. rewrite <- K. assert (L : k < mx) by lia. replace (k <? mx) with true by lia. split.
    + intros i Hi. unfold mput. destruct (N.eqb_spec (a + i) (a + k)); [lia|].
      specialize (B i). rewrite !N.add_0_r in B. rewrite N.add_0_l in B. apply B; lia.
    + unfold mput. rewrite N.eqb_refl. reflexivity.
Qed.

Lemma snprintf_safe : forall fmt va,
  (exists cs, forall m a mx, mx < 2 ^ 64 -> exists m', snprintf m a mx fmt va = POk (m', len cs mod 2 ^ 32) /\ wrote m m' a mx cs) \/
  (forall m a mx, snprintf m a mx fmt va = PUb).
Proof.
  intros fmt va. destruct (vloop_emit (List.length fmt) fmt va) as [(cs & H)|H]; [left|right].
  - exists cs. intros m a mx Hm. apply snprintf_wrote; [exact Hm|apply H].
  - intros m a mx. unfold snprintf. rewrite H. reflexivity.
Qed.
