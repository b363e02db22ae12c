(** Proofs about the log of realm calls. *)
From Coq Require Import NArith Arith Ascii String List Bool Lia ZifyBool ZifyN ZifyNat.
From Verif Require Import Printf SpecPrintf PrintfFacts PrintfFacts2 PrintfFacts3.
Import ListNotations.
Local Open Scope N_scope.

Lemma snprintf_fits : forall m a mx fmt va cs, mx < 2 ^ 32 -> len cs < mx ->
  vloop (List.length fmt) a mx (mkO m 0) fmt va = POk (emit a mx cs (mkO m 0)) ->
  exists m', snprintf m a mx fmt va = POk (m', len cs) /\ holds m' a cs /\ m' (a + len cs) = 0 /\ (forall x, x < a \/ a + mx <= x -> m' x = m x).
Proof.
  intros m a mx fmt va cs Hm Hl Hv. destruct (snprintf_wrote m a mx fmt va cs) as (m' & E & Wr); [|exact Hv|].
  - eapply N.lt_trans; [exact Hm|reflexivity].
  - exists m'. split; [rewrite E; rewrite N.mod_small; [reflexivity|eapply N.lt_trans; [exact Hl|exact Hm]]|].
    apply (wrote_fits _ _ _ _ _ Wr Hl).
Qed.

Lemma zfill_0 : forall b, zfill 33 b 0 = Some b.
Proof. intro b. cbn [zfill]. replace (len b <? 0) with false by lia. reflexivity. Qed.

Lemma value_nz : forall base l acc v, value base acc l = Some v -> Forall (fun c => c <> 0) l.
Proof.
  intros base l. induction l as [|c l IH]; intros acc v H; [constructor|]. cbn [value] in H.
  destruct (dig c) as [d|] eqn:D; [|discriminate]. destruct (d <? base); [|discriminate]. constructor; [|eapply IH; exact H].
  intros ->. discriminate.
Qed.
Lemma value_zeros : forall base n l, 0 < base -> value base 0 (zeros n ++ l) = value base 0 l.
Proof.
  intros base n l B. unfold zeros. induction (N.to_nat n) as [|k IH]; [reflexivity|]. cbn [repeat app value].
  change (dig (chr "0")) with (Some 0). cbv iota beta. apply N.ltb_lt in B. rewrite B. exact IH.
Qed.

(** A number in hexadecimal, with and without leading zeros *)
Definition fl_of (z lo : bool) : pfl := mkFl z false false false false false false false lo false false.
Lemma lx_emit : forall v, v < 2 ^ 64 -> exists ds, numeral false 16 v ds /\ len ds <= 16 /\
  forall a mx s, ntoa a mx s v false 16 0 0 (fl_of false true) = POk (emit a mx ds s).
Proof.
  intros v Hv. assert (Hv' : v < 16 ^ 16) by (replace (16 ^ 16) with (2 ^ 64) by (vm_compute; reflexivity); exact Hv).
  destruct (digits_numeral 33 16 [] v 16 false ltac:(discriminate) ltac:(discriminate) ltac:(discriminate) ltac:(discriminate) Hv' ltac:(discriminate)) as (r & D & Nm & L).
  cbn [app] in D. exists (rev r). split; [exact Nm|]. rewrite len_rev. split; [exact L|]. intros a mx s.
  unfold ntoa. replace (if v =? 0 then _ else _) with (fl_of false true) by (destruct (v =? 0); reflexivity).
  cbn [fl_of f_prec f_upper negb orb]. rewrite D. unfold ntoa_format.
  cbn [fl_of f_prec f_upper f_left f_zero f_hash f_plus f_space negb orb andb N.eqb guarded]. rewrite zfill_0. rewrite out_rev_emit. unfold rev_text.
  cbn [f_left f_zero negb andb]. replace (0 - len r) with 0 by lia. cbn [fl_of f_left f_zero negb andb]. rewrite app_nil_r. reflexivity.
Qed.
Lemma x8_emit : forall v, v < 2 ^ 32 -> exists ds, List.length ds = 8%nat /\ value 16 0 ds = Some v /\
  forall a mx s, ntoa a mx s v false 16 0 8 (fl_of true false) = POk (emit a mx ds s).
Proof.
  intros v Hv. assert (Hv' : v < 16 ^ 8) by (replace (16 ^ 8) with (2 ^ 32) by (vm_compute; reflexivity); exact Hv).
  destruct (digits_numeral 33 8 [] v 16 false ltac:(discriminate) ltac:(discriminate) ltac:(discriminate) ltac:(discriminate) Hv' ltac:(discriminate)) as (r & D & Nm & L).
  cbn [app] in D. exists (zeros (8 - len r) ++ rev r).
  split; [assert (K : len (zeros (8 - len r) ++ rev r) = 8) by (rewrite len_app, len_zeros, len_rev; clear - L; lia); apply Nat2N.inj; exact K|].
  split; [rewrite value_zeros by reflexivity; apply Nm|]. intros a mx s.
  unfold ntoa. replace (if v =? 0 then _ else _) with (fl_of true false) by (destruct (v =? 0); reflexivity).
  cbn [fl_of f_prec f_upper negb orb]. rewrite D. unfold ntoa_format.
  cbn [fl_of f_prec f_upper f_left f_zero f_hash f_plus f_space negb orb andb N.eqb guarded]. rewrite zfill_0.
  rewrite zfill_ok by (clear - L; lia).
  rewrite out_rev_emit. unfold rev_text.
  cbn [fl_of f_left f_zero negb andb app]. rewrite rev_app_distr, rev_zeros, app_nil_r. reflexivity.
Qed.

(** The formats *)
Lemma fmt_ss : forall a mx s p q, vloop 4 a mx s (str "%s%s") [AStr p; AStr q] = POk (emit a mx (p ++ q) s).
Proof. intros. rewrite emit_app. reflexivity. Qed.
Lemma fmt_s : forall a mx s p, vloop 2 a mx s (str "%s") [AStr p] = POk (emit a mx p s).
Proof. reflexivity. Qed.
Lemma fmt_rsi : forall a mx s p, vloop 9 a mx s (str " > RSI_%s") [AStr p] = POk (emit a mx (str " > RSI_" ++ p) s).
Proof. intros. rewrite emit_app. reflexivity. Qed.
Lemma fmt_s08x : forall v, v < 2 ^ 32 -> exists ds, List.length ds = 8%nat /\ value 16 0 ds = Some v /\
  forall a mx s p, vloop 6 a mx s (str "%s%08x") [AStr p; ANum v] = POk (emit a mx (p ++ ds) s).
Proof.
  intros v Hv. destruct (x8_emit v Hv) as (ds & L & V & E). exists ds. split; [exact L|]. split; [exact V|]. intros a mx s p.
  rewrite emit_app, <- (vloop_nil 4 a mx (emit a mx ds (emit a mx p s)) []).
  assert (D : directive a mx (emit a mx p s) (chr "x") (fl_of true false) 8 0 [ANum v] = POk (emit a mx ds (emit a mx p s), [])).
  { rewrite (directive_num (chr "x") false 16 false) by (try reflexivity; cbn; auto 10).
    unfold unsigned_arg. cbn [fl_of f_prec f_zero f_left f_plus f_space f_char f_short f_long f_llong orb andb].
    rewrite (N.mod_small v (2 ^ 32) Hv). change (mkFl true false false false false false false false false false false) with (fl_of true false).
    rewrite E. reflexivity. }
  transitivity (vloop 5 a mx (emit a mx p s) (str "%08x") [ANum v]); [reflexivity|].
  apply (vloop_dir 4 a mx (emit a mx p s) (str "08x") [ANum v] (str "8x") (fl_of true false) (str "x") (fl_of true false) 8 [ANum v]
    (str "x") (fl_of true false) 0 [ANum v] (chr "x") [] (fl_of true false)); try reflexivity. exact D.
Qed.
Lemma fmt_lx : forall v, v < 2 ^ 64 -> exists ds, numeral false 16 v ds /\ len ds <= 16 /\
  (forall a mx s, vloop 4 a mx s (str " %lx") [ANum v] = POk (emit a mx (chr " " :: ds) s)) /\
  (forall a mx s, vloop 6 a mx s (str " > %lx") [ANum v] = POk (emit a mx (str " > " ++ ds) s)).
Proof.
  intros v Hv. destruct (lx_emit v Hv) as (ds & Nm & L & E). exists ds. split; [exact Nm|]. split; [exact L|].
  assert (D : forall n a mx s, vloop (S n) a mx s (str "%lx") [ANum v] = POk (emit a mx ds s)).
  { intros n a mx s. rewrite <- (vloop_nil n a mx (emit a mx ds s) []).
    apply (vloop_dir n a mx s (str "lx") [ANum v] (str "lx") fl0 (str "lx") fl0 0 [ANum v] (str "lx") fl0 0 [ANum v] (chr "x") [] (fl_of false true)); try reflexivity.
    rewrite (directive_num (chr "x") false 16 false) by (try reflexivity; cbn; auto 10).
    unfold unsigned_arg. cbn [fl_of f_prec f_zero f_left f_plus f_space f_char f_short f_long f_llong orb andb].
    rewrite (N.mod_small v (2 ^ 64) Hv). change (mkFl false false false false false false false false true false false) with (fl_of false true).
    rewrite E. reflexivity. }
  split; intros a mx s.
  - change (chr " " :: ds) with ([chr " "] ++ ds). rewrite emit_app. rewrite <- (D 2%nat). reflexivity.
  - rewrite emit_app. rewrite <- (D 2%nat). reflexivity.
Qed.

Lemma numeral_nz : forall up base v ds, numeral up base v ds -> Forall (fun c => c <> 0) ds.
Proof. intros up base v ds (_ & _ & V & _). eapply value_nz. exact V. Qed.
Lemma print_vals_ok : forall vs m a room, Forall (fun v => v < 2 ^ 64) vs -> 17 * len vs < room -> room < 2 ^ 32 ->
  exists m' ps, let t := concat (map (cons (chr " ")) ps) in
    print_vals m a room vs = LOk (m', a + len t, room - len t) /\ Forall2 (numeral false 16) vs ps /\ len t <= 17 * len vs /\
    holds m' a t /\ Forall (fun c => c <> 0) t /\ (m a = 0 -> m' (a + len t) = 0) /\ (forall x, x < a \/ a + room <= x -> m' x = m x).
Proof.
  induction vs as [|v vs IH]; intros m a room F L R.
  - exists m, []. cbn. rewrite N.add_0_r, N.sub_0_r. split; [reflexivity|]. split; [constructor|]. split; [lia|].
    split; [intros i Hi; cbn in Hi; lia|]. split; [constructor|]. split; auto.
  - inversion F as [|v' vs' Fv Fvs E1]. clear F E1 H. rewrite len_cons in L.
    destruct (fmt_lx v Fv) as (ds & Nm & Ld & E & _).
    destruct (snprintf_fits m a room (str " %lx") [ANum v] (chr " " :: ds) R) as (m1 & S1 & H1 & Z1 & O1); [rewrite len_cons; lia|apply E|].
    rewrite len_cons in S1, Z1.
    destruct (IH m1 (a + (1 + len ds)) (room - (1 + len ds)) Fvs) as (m2 & ps & P & F2 & L2 & H2 & Nz & Z2 & O2); [lia|lia|].
    exists m2, (ds :: ps). cbn [map concat]. cbn [print_vals]. rewrite S1.
    replace ((0 <? 1 + len ds) && (1 + len ds <? room)) with true by lia. cbv zeta in *. rewrite P.
    rewrite len_app, !len_cons. set (t := concat (map (cons (chr " ")) ps)) in *.
    split; [f_equal; f_equal; [f_equal|]; lia|]. split; [constructor; assumption|]. split; [lia|].
    split; [apply holds_app; [apply (holds_ext m1)|rewrite len_cons; exact H2]|].
    + exact H1.
    + rewrite len_cons. intros x Hx. apply O2. lia.
    + split; [apply Forall_app; split; [constructor; [discriminate|exact (numeral_nz _ _ _ _ Nm)]|exact Nz]|].
      split; [intros _; replace (a + (1 + len ds + len t)) with (a + (1 + len ds) + len t) by lia; apply Z2; exact Z1|].
      intros x Hx. rewrite O2 by lia. apply O1. lia.
Qed.

(** The table *)
Definition nzb (l : list N) : bool := forallb (fun c => negb (c =? 0)) l.
Lemma nzb_ok : forall l, nzb l = true -> Forall (fun c => c <> 0) l.
Proof. intros l H. apply Forall_forall. intros c Hc. unfold nzb in H. rewrite forallb_forall in H. specialize (H c Hc). lia. Qed.
Lemma lookup_ok : forall (P : N -> list N -> N -> N -> bool) t, forallb (fun e => let '(j, (n, a, v)) := e in P j n a v) t = true ->
  forall i, match rsi_lookup t i with (Some n, a, v) => P i n a v = true | (None, a, v) => a = 0 /\ v = 0 end.
Proof.
  intros P t. induction t as [|[j [[n a] v]] t IH]; intros H i; [split; reflexivity|]. cbn in H. apply andb_prop in H. destruct H as [H1 H2].
  cbn [rsi_lookup]. destruct (N.eqb_spec j i) as [->|_]; [exact H1|apply IH; exact H2].
Qed.
Lemma table_ok : forall i, match rsi_lookup rsi_table i with
  | (Some n, a, v) => (i <> 0x16 -> len n <= 22) /\ Forall (fun c => c <> 0) n /\ a + v <= 10
  | (None, a, v) => a = 0 /\ v = 0 end.
Proof.
  intro i. pose proof (lookup_ok (fun j n a v => ((j =? 0x16) || (len n <=? 22)) && nzb n && (a + v <=? 10)) rsi_table ltac:(vm_compute; reflexivity) i) as H.
  destruct (rsi_lookup rsi_table i) as [[[n|] a] v]; [|exact H]. cbv beta in H.
  apply andb_prop in H. destruct H as [H H3]. apply andb_prop in H. destruct H as [H1 H2]. split; [lia|]. split; [apply nzb_ok; exact H2|lia].
Qed.
Lemma status_ok : forall i, len (rsi_status i) <= 13 /\ Forall (fun c => c <> 0) (rsi_status i).
Proof.
  intro i. assert (K : (len (rsi_status i) <=? 13) && nzb (rsi_status i) = true).
  { unfold rsi_status. destruct i as [|[[[]|[]|]|[[]|[]|]|]]; reflexivity. }
  apply andb_prop in K. destruct K as [K1 K2]. split; [lia|apply nzb_ok; exact K2].
Qed.

(** The first part of the line *)
Definition is_rsi (id : N) : bool := (RSI_FIRST <=? id) && (id <=? RSI_LAST).
Definition row (id : N) : option (list N) * N * N := if is_rsi id then rsi_lookup rsi_table (id - RSI_FIRST) else (None, 7, 3).
Lemma row_ok : forall id, snd (fst (row id)) + snd (row id) <= 10.
Proof.
  intro id. unfold row. destruct (is_rsi id); [|discriminate]. pose proof (table_ok (id - RSI_FIRST)) as T.
  destruct (rsi_lookup _ _) as [[[n|] a] v]; cbn [fst snd]; [apply T|]. destruct T as [-> ->]. discriminate.
Qed.
Definition name_call (m : mem) (id : N) : pres (mem * N) :=
  if is_rsi id then
    match fst (fst (row id)) with
    | Some n => snprintf m 0 (MAX_NAME_LEN + 1) (str "%s%s") [AStr (str "SMC_RSI"); AStr n]
    | None => snprintf m 0 (MAX_NAME_LEN + 1) (str "%s") [AStr (str "SMC_RSI_<unsupported>")]
    end
  else snprintf m 0 (MAX_NAME_LEN + 1) (str "%s%08x") [AStr (if is_psci id then str "PSCI_" else str "SMC_"); ANum id].
Lemma print_entry_eq : forall m id args, print_entry m id args =
  match name_call m id with
  | POk (m, cnt) =>
      if (0 <? cnt) && (cnt <? MAX_NAME_LEN + 1) then
        print_vals (memset m cnt 0x20 (MAX_NAME_LEN - cnt)) MAX_NAME_LEN (BUFFER_SIZE - MAX_NAME_LEN) (firstn (N.to_nat (snd (fst (row id)))) args)
      else LAssert
  | _ => LUb
  end.
Proof.
  intros m id args. unfold print_entry, name_call, row, is_rsi. destruct ((RSI_FIRST <=? id) && (id <=? RSI_LAST)).
  - destruct (rsi_lookup rsi_table (id - RSI_FIRST)) as [[[n|] a] v]; cbv beta iota zeta delta [fst snd]; reflexivity.
  - destruct (is_psci id); cbv beta iota zeta delta [fst snd]; reflexivity.
Qed.
Lemma name_ok : forall m id, id < 2 ^ 32 -> id <> 0xC40001A6 ->
  exists m' nm, name_call m id = POk (m', len nm) /\ call_name id nm /\ 0 < len nm /\ len nm <= 29 /\ Forall (fun c => c <> 0) nm /\
    holds m' 0 nm /\ (forall x, 30 <= x -> m' x = m x).
Proof.
  intros m id Hid Hne. unfold name_call, call_name, row. fold (is_rsi id). destruct (is_rsi id) eqn:R.
  - pose proof (table_ok (id - RSI_FIRST)) as T. destruct (rsi_lookup rsi_table (id - RSI_FIRST)) as [[[n|] a] v]; cbn [fst snd].
    + destruct T as (T1 & T2 & _). assert (L : len n <= 22).
      { apply T1. clear - R Hne. unfold is_rsi, RSI_FIRST, RSI_LAST in *. lia. }
      assert (L2 : len (str "SMC_RSI" ++ n) <= 29) by (rewrite len_app; change (len (str "SMC_RSI")) with 7; clear - L; lia).
      destruct (snprintf_fits m 0 (MAX_NAME_LEN + 1) (str "%s%s") [AStr (str "SMC_RSI"); AStr n] (str "SMC_RSI" ++ n)) as (m' & E & H & _ & O);
        [reflexivity|unfold MAX_NAME_LEN; clear - L2; lia|apply fmt_ss|].
      exists m', (str "SMC_RSI" ++ n). split; [exact E|]. split; [reflexivity|]. split; [rewrite len_app; change (len (str "SMC_RSI")) with 7; clear; lia|].
      split; [exact L2|]. split; [apply Forall_app; split; [apply nzb_ok; reflexivity|exact T2]|]. split; [exact H|].
      intros x Hx. apply O. right. unfold MAX_NAME_LEN. clear - Hx. lia.
    + destruct (snprintf_fits m 0 (MAX_NAME_LEN + 1) (str "%s") [AStr (str "SMC_RSI_<unsupported>")] (str "SMC_RSI_<unsupported>")) as (m' & E & H & _ & O);
        [reflexivity|reflexivity|apply fmt_s|].
      exists m', (str "SMC_RSI_<unsupported>"). split; [exact E|]. split; [reflexivity|]. split; [reflexivity|]. split; [discriminate|].
      split; [apply nzb_ok; reflexivity|]. split; [exact H|]. intros x Hx. apply O. right. unfold MAX_NAME_LEN. clear - Hx. lia.
  - destruct (fmt_s08x id Hid) as (ds & L & V & E). set (p := if is_psci id then str "PSCI_" else str "SMC_").
    assert (Lp : 4 <= len p <= 5) by (unfold p; destruct (is_psci id); split; discriminate).
    assert (Ln : len (p ++ ds) = len p + 8) by (rewrite len_app; f_equal; unfold len; rewrite L; reflexivity).
    destruct (snprintf_fits m 0 (MAX_NAME_LEN + 1) (str "%s%08x") [AStr p; ANum id] (p ++ ds)) as (m' & Es & H & _ & O);
      [reflexivity|unfold MAX_NAME_LEN; rewrite Ln; clear - Lp; lia|apply E|].
    exists m', (p ++ ds). split; [exact Es|]. split; [exists ds; split; [exact L|split; [exact V|reflexivity]]|].
    split; [rewrite Ln; clear; lia|]. split; [rewrite Ln; clear - Lp; lia|].
    split; [apply Forall_app; split; [apply nzb_ok; unfold p; destruct (is_psci id); reflexivity|eapply value_nz; exact V]|].
    split; [exact H|]. intros x Hx. apply O. right. unfold MAX_NAME_LEN. clear - Hx. lia.
Qed.
Lemma len_firstn : forall (l : list N) k, len (firstn (N.to_nat k) l) <= k.
Proof. intros l k. unfold len. pose proof (firstn_le_length (N.to_nat k) l). lia. Qed.
Lemma Forall_firstn' : forall (P : N -> Prop) l k, Forall P l -> Forall P (firstn k l).
Proof. intros P l. induction l as [|x l IH]; intros [|k] H; cbn; try constructor; inversion H; auto. Qed.
Lemma nz_blanks : forall n, Forall (fun c => c <> 0) (blanks n).
Proof. intro n. apply Forall_forall. intros c Hc. apply repeat_spec in Hc. subst. discriminate. Qed.
Lemma entry_ok : forall m id args, id < 2 ^ 32 -> id <> 0xC40001A6 -> Forall (fun v => v < 2 ^ 64) args ->
  exists m' nm ps, let t := nm ++ blanks (29 - len nm) ++ concat (map (cons (chr " ")) ps) in
    print_entry m id args = LOk (m', len t, 220 - len t) /\ call_name id nm /\
    Forall2 (numeral false 16) (firstn (N.to_nat (snd (fst (row id)))) args) ps /\
    29 <= len t <= 29 + 17 * snd (fst (row id)) /\ holds m' 0 t /\ Forall (fun c => c <> 0) t /\ (forall x, 220 <= x -> m' x = m x).
Proof.
  intros m id args Hid Hne Ha. destruct (name_ok m id Hid Hne) as (m1 & nm & E & C & L0 & L1 & Nz & H1 & O1).
  set (m2 := memset m1 (len nm) 0x20 (MAX_NAME_LEN - len nm)).
  pose proof (row_ok id) as R. remember (snd (fst (row id))) as na eqn:Ena.
  pose proof (len_firstn args na) as Lf.
  destruct (print_vals_ok (firstn (N.to_nat na) args) m2 29 191) as (m3 & ps & P & F2 & L2 & H2 & Nz2 & _ & O2);
    [apply Forall_firstn'; exact Ha|clear - Lf R; lia|reflexivity|].
  exists m3, nm, ps. cbv zeta in *. set (t := concat (map (cons (chr " ")) ps)) in *. clearbody t.
  assert (Lt : len (nm ++ blanks (29 - len nm) ++ t) = 29 + len t) by (rewrite !len_app, len_blanks; clear - L1; lia).
  rewrite Lt. rewrite print_entry_eq, E, <- Ena.
  split.
  { unfold MAX_NAME_LEN in *. replace ((0 <? len nm) && (len nm <? 29 + 1)) with true by (clear - L0 L1; lia).
    change (BUFFER_SIZE - 29) with 191. fold m2. rewrite P. f_equal. f_equal. clear. lia. }
  split; [exact C|]. split; [exact F2|]. split; [clear - L2 Lf; lia|].
  split.
  { apply holds_app; [|rewrite N.add_0_l; apply holds_app].
    - apply (holds_ext m1); [exact H1|]. intros x Hx. rewrite O2 by (clear - Hx L1; lia). unfold m2, memset.
      replace (len nm <=? x) with false by (clear - Hx; lia). reflexivity.
    - apply (holds_ext m2); [|intros x Hx; rewrite len_blanks in Hx; apply O2; clear - Hx L1; lia].
      destruct (holds_blanks m1 (len nm) (29 - len nm) (29 - len nm)) as [K|K]; [exact K|clear - K; lia].
    - rewrite len_blanks. replace (len nm + (29 - len nm)) with 29 by (clear - L1; lia). exact H2. }
  split; [repeat (apply Forall_app; split); [exact Nz|apply nz_blanks|exact Nz2]|].
  intros x Hx. rewrite O2 by (clear - Hx; lia). unfold m2, memset, MAX_NAME_LEN.
  replace (x <? len nm + (29 - len nm)) with false by (clear - Hx L1; lia). rewrite andb_false_r. apply O1. clear - Hx. lia.
Qed.

Theorem rsi_log_ok : forall m id args regs, id < 2 ^ 32 -> id <> 0xC40001A6 ->
  Forall (fun v => v < 2 ^ 64) args -> Forall (fun v => v < 2 ^ 64) regs ->
  exists m' line, rsi_log m id args regs = LOk m' /\ (forall x, BUFFER_SIZE <= x -> m' x = m x) /\
    log_line id args regs line /\ text (N.to_nat BUFFER_SIZE) m' 0 = line.
Proof.
  intros m id args regs Hid Hne Ha Hr.
  destruct (entry_ok m id args Hid Hne Ha) as (m1 & nm & ps & E & C & F1 & L1 & H1 & Nz1 & O1).
  pose proof (row_ok id) as R. cbv zeta in *. unfold rsi_log. rewrite E. clear E.
  unfold log_line. fold (is_rsi id). fold (row id).
  assert (Nv : (if is_rsi id then snd (rsi_lookup rsi_table (id - RSI_FIRST)) else 3) = snd (row id)) by (unfold row; destruct (is_rsi id); reflexivity).
  rewrite Nv. clear Nv. destruct (row id) as [[on na] nv]. cbn [fst snd] in *.
  set (x0 := nth 0 regs 0). set (t := nm ++ blanks (29 - len nm) ++ concat (map (cons (chr " ")) ps)) in *.
  assert (Hx0 : x0 < 2 ^ 64).
  { unfold x0. destruct regs as [|r regs]; [reflexivity|]. inversion Hr. assumption. }
  assert (St : exists st m2 q, st = str " > " ++ q /\ (if is_rsi id && (x0 mod 2 ^ 8 <? 6) then q = str "RSI_" ++ rsi_status (x0 mod 2 ^ 8) else numeral false 16 x0 q) /\
    (if is_rsi id && (x0 mod 2 ^ 8 <? 6)
             then snprintf m1 (len t) (220 - len t) (str " > RSI_%s") [AStr (rsi_status (x0 mod 2 ^ 8))]
             else snprintf m1 (len t) (220 - len t) (str " > %lx") [ANum x0]) = POk (m2, len st) /\
    0 < len st /\ len st <= 20 /\ Forall (fun c => c <> 0) st /\ holds m2 (len t) st /\ m2 (len t + len st) = 0 /\
    (forall x, x < len t \/ len t + (220 - len t) <= x -> m2 x = m1 x)).
  { destruct (is_rsi id && (x0 mod 2 ^ 8 <? 6)).
    - destruct (status_ok (x0 mod 2 ^ 8)) as [S1 S2]. set (sx := rsi_status _) in *. clearbody sx.
      destruct (snprintf_fits m1 (len t) (220 - len t) (str " > RSI_%s") [AStr sx] (str " > RSI_" ++ sx)) as (m2 & Es & H & Z & O);
        [apply N.le_lt_trans with 220; [apply N.le_sub_l|reflexivity]|rewrite len_app; change (len (str " > RSI_")) with 7; clear - S1 L1 R; lia|apply fmt_rsi|].
      exists (str " > RSI_" ++ sx), m2, (str "RSI_" ++ sx). split; [reflexivity|]. split; [reflexivity|]. split; [exact Es|].
      split; [rewrite len_app; change (len (str " > RSI_")) with 7; clear; lia|]. split; [rewrite len_app; change (len (str " > RSI_")) with 7; clear - S1; lia|].
      split; [apply Forall_app; split; [apply nzb_ok; reflexivity|exact S2]|]. auto.
    - destruct (fmt_lx x0 Hx0) as (ds & Nm & Ld & _ & Ef).
      destruct (snprintf_fits m1 (len t) (220 - len t) (str " > %lx") [ANum x0] (str " > " ++ ds)) as (m2 & Es & H & Z & O);
        [apply N.le_lt_trans with 220; [apply N.le_sub_l|reflexivity]|rewrite len_app; change (len (str " > ")) with 3; clear - Ld L1 R; lia|apply Ef|].
      exists (str " > " ++ ds), m2, ds. split; [reflexivity|]. split; [exact Nm|]. split; [exact Es|].
      split; [rewrite len_app; change (len (str " > ")) with 3; clear; lia|]. split; [rewrite len_app; change (len (str " > ")) with 3; clear - Ld; lia|].
      split; [apply Forall_app; split; [apply nzb_ok; reflexivity|exact (numeral_nz _ _ _ _ Nm)]|]. auto. }
  destruct St as (st & m2 & q & Eq & Q & Es & S0 & S1 & Nz2 & H2 & Z2 & O2).
  change (2 ^ 8) with 256 in *. rewrite Es. replace ((0 <? len st) && (len st <? 220 - len t)) with true by (clear - S0 S1 L1 R; lia).
  pose proof (len_firstn (tl regs) nv) as Lf.
  destruct (print_vals_ok (firstn (N.to_nat nv) (tl regs)) m2 (len t + len st) (220 - len t - len st)) as (m3 & rs & P & F3 & L3 & H3 & Nz3 & Z3 & O3).
  { apply Forall_firstn'. destruct regs; [constructor|]. inversion Hr. assumption. }
  { clear - Lf S1 L1 R. lia. }
  { apply N.le_lt_trans with 220; [rewrite <- N.sub_add_distr; apply N.le_sub_l|reflexivity]. }
  cbv zeta in *. rewrite P. set (u := concat (map (cons (chr " ")) rs)) in *.
  exists m3, (t ++ st ++ u). split; [reflexivity|]. split.
  { intros x Hx. change BUFFER_SIZE with 220 in Hx. rewrite O3 by (clear - Hx S1 L1 R; lia). rewrite O2 by (clear - Hx S1 L1 R; lia). apply O1. exact Hx. }
  split.
  { exists nm, ps, q, rs. split; [exact C|]. split; [exact F1|]. split; [exact F3|]. split; [exact Q|].
    unfold t, u. rewrite Eq. rewrite <- !app_assoc. reflexivity. }
  apply text_holds.
  - apply holds_app; [|rewrite N.add_0_l; apply holds_app; [|exact H3]].
    + apply (holds_ext m1); [exact H1|]. intros x Hx. rewrite O3 by (clear - Hx; lia). apply O2. clear - Hx. lia.
    + apply (holds_ext m2); [exact H2|]. intros x Hx. apply O3. clear - Hx. lia.
  - apply Forall_app. split; [exact Nz1|]. apply Forall_app. split; [exact Nz2|exact Nz3].
  - rewrite !len_app, N.add_0_l. rewrite N.add_assoc. apply Z3. exact Z2.
  - assert (K : len (t ++ st ++ u) < 220) by (rewrite !len_app; clear - L1 S1 L3 Lf R; lia). unfold len in K. change (N.to_nat BUFFER_SIZE) with 220%nat.
    revert K. generalize (List.length (t ++ st ++ u)). clear. intros n K. lia.
Qed.

Theorem rsi_log_stops : forall m args regs, rsi_log m 0xC40001A6 args regs = LAssert.
Proof.
  intros m args regs. unfold rsi_log. rewrite print_entry_eq. unfold name_call.
  change (is_rsi 0xC40001A6) with true. change (fst (fst (row 0xC40001A6))) with (Some (str "_RDEV_GET_INTERFACE_REPORT")). cbv iota.
  destruct (snprintf_wrote m 0 (MAX_NAME_LEN + 1) (str "%s%s") [AStr (str "SMC_RSI"); AStr (str "_RDEV_GET_INTERFACE_REPORT")]
    (str "SMC_RSI" ++ str "_RDEV_GET_INTERFACE_REPORT")) as (m' & E & _); [reflexivity|apply fmt_ss|]. rewrite E. reflexivity.
Qed.

(** Strings *)
Lemma printf_str_ok : forall w p t m a mx, w < 2 ^ 32 -> p < 2 ^ 31 -> len t < 2 ^ 31 -> mx < 2 ^ 64 ->
  let s := firstn (N.to_nat p) t in let gap := blanks (arg_width w - len s) in
  let txt := if arg_left w then s ++ gap else gap ++ s in
  exists m', snprintf m a mx (str "%*.*s") [ANum w; ANum p; AStr t] = POk (m', len txt) /\ wrote m m' a mx txt.
Proof.
  intros w p t m a mx Hw Hp Ht Hmx s gap txt.
  assert (S : firstn (N.to_nat (N.min p (len t))) t = s).
  { unfold s. destruct (N.le_gt_cases p (len t)) as [L|L]; [rewrite N.min_l by exact L; reflexivity|].
    rewrite N.min_r by (apply N.lt_le_incl; exact L). unfold len in *. rewrite Nnat.Nat2N.id, firstn_all. symmetry. apply firstn_all2. lia. }
  assert (Ls : len s <= len t).
  { unfold s, len. pose proof (firstn_length (N.to_nat p) t). lia. }
  assert (W : arg_width w <= 2 ^ 31) by (unfold arg_width, arg_left; destruct (N.leb_spec (2 ^ 31) w) as [H|H]; clear - H Hw; lia).
  destruct (snprintf_wrote m a mx (str "%*.*s") [ANum w; ANum p; AStr t] txt Hmx) as (m' & E & Wr).
  - rewrite <- (vloop_nil 4 a mx (emit a mx txt (mkO m 0)) []).
    set (f := mkFl false (arg_left w) false false false false false false false false false).
    apply (vloop_dir 4 a mx (mkO m 0) (str "*.*s") [ANum w; ANum p; AStr t] (str "*.*s") fl0 (str ".*s") f (arg_width w) [ANum p; AStr t]
      (str "s") (set_prec f) p [AStr t] (chr "s") [] (set_prec f)).
    + reflexivity.
    + unfold p_width. change (str "*.*s") with (chr "*" :: str ".*s"). cbv iota. change (is_digit (chr "*")) with false. change (chr "*" =? chr "*") with true. cbv iota zeta.
      rewrite (N.mod_small w (2 ^ 32)) by exact Hw. unfold arg_width, f. change (2 ^ 31 <=? w) with (arg_left w). destruct (arg_left w); reflexivity.
    + unfold p_precision. change (str ".*s") with (chr "." :: chr "*" :: str "s"). cbv iota. change (is_digit (chr "*")) with false. change (chr "*" =? chr "*") with true.
      change (chr "." =? chr ".") with true. cbv iota zeta. rewrite (N.mod_small p (2 ^ 32)) by (clear - Hp; lia). replace (2 ^ 31 <=? p) with false by (clear - Hp; lia). reflexivity.
    + reflexivity.
    + transitivity (POk (let s1 := if arg_left w then mkO m 0 else pad a mx (arg_width w - len (firstn (N.to_nat (N.min p (len t))) t)) (mkO m 0) in
        let s2 := emit a mx (firstn (N.to_nat (N.min p (len t))) t) s1 in
        if arg_left w then pad a mx (arg_width w - len (firstn (N.to_nat (N.min p (len t))) t)) s2 else s2, @nil parg)); [reflexivity|].
      rewrite S. unfold txt, gap. cbv zeta. destruct (arg_left w); rewrite emit_app, pad_emit; reflexivity.
  - exists m'. split; [|exact Wr]. rewrite E. rewrite N.mod_small; [reflexivity|].
    unfold txt, gap. destruct (arg_left w); rewrite len_app, len_blanks; clear - Ls Ht W; lia.
Qed.
