(** Proofs about the start of attestation. *)
From Coq Require Import NArith ZArith List Bool Lia.
From Verif Require Import PlatToken SpecPlatToken.
Import ListNotations.
Local Open Scope N_scope.

Lemma bytes_len b n : len (bytes b n) = n.
Proof. unfold len, bytes; rewrite map_length, seq_length; lia. Qed.
Lemma bytes_nth b n i : i < n -> nth (N.to_nat i) (bytes b n) 0 = b i.
Proof.
  intros H. unfold bytes.
  rewrite nth_indep with (d' := b (N.of_nat 0)) by (rewrite map_length, seq_length; lia).
  change (b (N.of_nat 0)) with ((fun k => b (N.of_nat k)) 0%nat).
  rewrite map_nth, seq_nth by lia. f_equal; lia.
Qed.
Lemma bytes_ext b b' n : (forall i, i < n -> b i = b' i) -> bytes b n = bytes b' n.
Proof. intros H. unfold bytes. apply map_ext_in. intros k Hk. apply in_seq in Hk. apply H. lia. Qed.
Lemma bytes_list b l n : n = len l -> (forall i, i < n -> b i = nth (N.to_nat i) l 0) -> bytes b n = l.
Proof.
  intros -> H. apply nth_ext with (d := 0) (d' := 0).
  - generalize (bytes_len b (len l)); unfold len; lia.
  - intros k Hk. generalize (bytes_len b (len l)); intros E. unfold len in E at 1.
    replace k with (N.to_nat (N.of_nat k)) by lia.
    rewrite bytes_nth by (unfold len in *; lia). apply H. unfold len in *; lia.
Qed.
Lemma bytes_put tok off b h : bytes (put tok off b h) (off + h) = bytes tok off ++ bytes b h.
Proof.
  apply bytes_list.
  - unfold len; rewrite app_length. generalize (bytes_len tok off), (bytes_len b h); unfold len; lia.
  - intros i Hi. unfold put. destruct (N.leb_spec off i); cbn [andb].
    + destruct (N.ltb_spec i (off + h)); [| lia].
      assert (L : length (bytes tok off) = N.to_nat off) by (generalize (bytes_len tok off); unfold len; lia).
      rewrite app_nth2 by lia. rewrite L. replace (N.to_nat i - N.to_nat off)%nat with (N.to_nat (i - off)) by lia.
      rewrite bytes_nth; [reflexivity | lia].
    + rewrite app_nth1 by (generalize (bytes_len tok off); unfold len; lia). rewrite bytes_nth by lia. reflexivity.
Qed.

Lemma int32_0 v : v mod 2 ^ 32 <> 0 -> int32 v <> 0%Z.
Proof.
  intros H. unfold int32. pose proof (N.mod_lt v (2 ^ 32) ltac:(discriminate)) as L.
  destruct (v mod 2 ^ 32 <? 2 ^ 31).
  - lia.
  - change (2 ^ 32)%Z with (Z.of_N (2 ^ 32)). lia.
Qed.
Lemma int32_busy a : busy a = true -> int32 (a0 a) = E_RMM_AGAIN /\ a0 a <> 0.
Proof.
  unfold busy. intros H. apply orb_true_iff in H. destruct H as [H | H]; apply N.eqb_eq in H; rewrite H; split;
    first [vm_compute; reflexivity | vm_compute; discriminate].
Qed.

(** One call *)
Lemma get_ok old a h r : a0 a = 0 -> get_platform_token old a h r = (0%Z, a1 a, if old then 0 else a2 a).
Proof. intros E; unfold get_platform_token; rewrite E; reflexivity. Qed.
Lemma get_err old a h r : a0 a <> 0 -> get_platform_token old a h r = (int32 (a0 a), h, r).
Proof. intros E; unfold get_platform_token. apply N.eqb_neq in E; rewrite E; reflexivity. Qed.

Lemma no_wrap off h r cap : off <= cap -> cap <= 2 ^ 62 -> h <= 4096 -> r < 2 ^ 63 -> (off + h + r) mod 2 ^ 64 = off + h + r.
Proof.
  intros. apply N.mod_small.
  apply N.le_lt_trans with (2 ^ 62 + 4096 + 2 ^ 63); [| vm_compute; reflexivity].
  set (x := 2 ^ 62) in *; set (y := 2 ^ 63) in *; clearbody x y. lia.
Qed.

Definition same (s s' : state) : Prop :=
  s_loaded s' = s_loaded s /\ s_key s' = s_key s /\ s_pub s' = s_pub s /\ s_hash s' = s_hash s.

Lemma hunks_gen old cap s : cap <= 2 ^ 62 -> forall answers, Forall sane answers ->
  forall shared hl off hunk rem tok calls, off <= cap ->
  match hunks old cap s answers shared hl off hunk rem tok calls with
  | Bad | Assert => False
  | Waiting => True
  | Ret r s' _ => s_locked s' = false /\ same s s' /\
      (r = 0%Z -> get_token s' = Some (bytes tok off ++ delivered old answers) /\ len (bytes tok off ++ delivered old answers) <= cap) /\
      (r <> 0%Z -> s_token s' = s_token s)
  end.
Proof.
  intros Hcap answers F. induction F as [| a answers A F IH]; intros; cbn [hunks]; [exact I |].
  unfold sane in A. cbn [delivered]. destruct (N.eqb_spec (a0 a) 0) as [E | E].
  - destruct A as [A1 A2]. rewrite (get_ok _ _ _ _ E).
    change ((0 =? E_RMM_AGAIN)%Z) with false. change ((0 =? 0)%Z) with true. cbn [negb].
    destruct (N.eqb_spec (a1 a) 0) as [Z | _]; [lia |].
    assert (R : (if old then 0 else a2 a) < 2 ^ 63) by (destruct old; [vm_compute; reflexivity | exact A2]).
    set (rm := if old then 0 else a2 a) in *. clearbody rm. clear A2.
    rewrite (no_wrap off (a1 a) rm cap H Hcap (proj2 A1) R). clear R.
    destruct (N.ltb_spec cap (off + a1 a + rm)) as [L | L].
    + split; [reflexivity |]. split; [repeat split |]. split; [discriminate | reflexivity].
    + unfold SHARED_SIZE. destruct (N.ltb_spec 4096 (a1 a)); [lia |].
      destruct (N.ltb_spec cap (off + a1 a)); [lia |]. cbn [orb].
      destruct (N.ltb_spec 0 rm) as [R | R].
      * specialize (IH (abuf a) 0 (off + a1 a) (a1 a) rm (put tok off (abuf a) (a1 a))
          (calls ++ [(hl, bytes shared HASH_SIZE)]) ltac:(lia)).
        rewrite bytes_put, <- app_assoc in IH. destruct (N.eqb_spec rm 0); [lia |]. exact IH.
      * destruct (N.eqb_spec rm 0); [| lia]. split; [reflexivity |]. split; [repeat split |]. rewrite app_nil_r. split; [| congruence].
        intros _. unfold get_token; cbn [s_token s_tok]. rewrite bytes_put. split; [reflexivity |].
        unfold len; rewrite app_length. generalize (bytes_len tok off), (bytes_len (abuf a) (a1 a)); unfold len; lia.
  - rewrite (get_err _ _ _ _ E). destruct (Z.eqb_spec (int32 (a0 a)) E_RMM_AGAIN) as [X | X].
    + apply IH; auto.
    + destruct (Z.eqb_spec (int32 (a0 a)) 0) as [Z | Z]; [exfalso; exact (int32_0 _ A Z) |]. cbn [negb].
      split; [reflexivity |]. split; [repeat split |]. split; [discriminate | reflexivity].
Qed.

Lemma setup_gen old cap s answers : cap <= 2 ^ 62 -> Forall sane answers -> s_locked s = false ->
  match setup_token old cap answers s with
  | Bad | Assert => False
  | Waiting => True
  | Ret r s' _ => s_locked s' = false /\
      (r = 0%Z -> get_token s' = Some (delivered old answers) /\ len (delivered old answers) <= cap) /\
      (r <> 0%Z -> s_token s' = s_token s)
  end.
Proof.
  intros C F L. unfold setup_token. destruct (s_loaded s); cbn [negb].
  - pose proof (hunks_gen old cap s C answers F
      (put (s_shared s) 0 (of_list (s_hash s)) (N.of_nat (length (s_hash s)))) HASH_SIZE 0 0 0 (s_tok s) [] (N.le_0_l _)) as H.
    destruct (hunks _ _ _ _ _ _ _ _ _ _ _); auto. destruct H as (A & _ & B & D). auto.
  - split; [auto |]. split; [discriminate | reflexivity].
Qed.

(** An EL3 that serves the token *)
Lemma serves_hunk old T b a rest : serves old T b (a :: rest) -> busy a = false ->
  exists h t, T = h ++ t /\ h <> [] /\ len h <= 4096 /\ a0 a = 0 /\ a1 a = len h /\
        (if old then t = [] else a2 a = len t) /\
        (forall i, i < len h -> abuf a i = nth (N.to_nat i) h 0) /\
        (t <> [] -> serves old t (abuf a) rest).
Proof. intros [(H & _) | H] B; [congruence | exact H]. Qed.
Lemma serves_busy old T b a rest : serves old T b (a :: rest) -> busy a = true ->
  (forall i, abuf a i = b i) /\ serves old T b rest.
Proof.
  intros [(_ & H & H') | (h & t & _ & _ & _ & E & _)] B; [auto |].
  exfalso. destruct (int32_busy _ B) as [_ N]. contradiction.
Qed.
Lemma serves_ext old T answers : forall b b', (forall i, b i = b' i) -> serves old T b answers -> serves old T b' answers.
Proof.
  induction answers as [| a rest IH]; cbn [serves]; intros b b' E H; [exact H |].
  destruct H as [(B & X & Y) | H]; [left | right; exact H].
  split; [exact B |]. split; [intros i; rewrite X; apply E | exact (IH b b' E Y)].
Qed.
Lemma nonempty_len (h : list N) : h <> [] -> len h <> 0.
Proof. destruct h; unfold len; cbn [length]; [congruence | lia]. Qed.
Lemma len_app (a b : list N) : len (a ++ b) = len a + len b.
Proof. unfold len; rewrite app_length; lia. Qed.
Lemma no_wrap2 x cap : x <= cap -> cap <= 2 ^ 62 -> x mod 2 ^ 64 = x.
Proof. intros. apply N.mod_small. apply N.le_lt_trans with (2 ^ 62); [eapply N.le_trans; eauto | vm_compute; reflexivity]. Qed.

(** Calls made later carry no challenge *)
Definition rest_calls (l : list (N * list N)) : Prop := Forall (fun c => fst c = 0) l.

Lemma hunks_rest old cap s : cap <= 2 ^ 62 -> forall answers T b off hunk rem tok calls,
  serves old T b answers -> T <> [] -> off + len T <= cap ->
  exists s' l, hunks old cap s answers b 0 off hunk rem tok calls = Ret 0 s' (calls ++ l) /\
    rest_calls l /\ get_token s' = Some (bytes tok off ++ T) /\ s_locked s' = false.
Proof.
  intros Hcap. induction answers as [| a rest IH]; intros T b off hunk rem tok calls S NE L; [contradiction |].
  cbn [hunks]. destruct (busy a) eqn:B.
  - destruct (serves_busy _ _ _ _ _ S B) as [X S']. destruct (int32_busy _ B) as [E N].
    rewrite (get_err _ _ _ _ N), E, Z.eqb_refl.
    destruct (IH T (abuf a) off hunk rem tok (calls ++ [(0, bytes b HASH_SIZE)])) as (s' & l & -> & R & G & U); auto.
    + apply serves_ext with b; auto.
    + exists s', ((0, bytes b HASH_SIZE) :: l). rewrite <- app_assoc. repeat split; auto. constructor; auto.
  - destruct (serves_hunk _ _ _ _ _ S B) as (h & t & -> & Nh & Lh & E & E1 & E2 & X & S').
    rewrite len_app in L. apply nonempty_len in Nh.
    rewrite (get_ok _ _ _ _ E). change ((0 =? E_RMM_AGAIN)%Z) with false. change ((0 =? 0)%Z) with true. cbn [negb].
    replace (if old then 0 else a2 a) with (len t) by (destruct old; [subst t; reflexivity | auto]).
    rewrite E1. destruct (N.eqb_spec (len h) 0); [contradiction |].
    rewrite (no_wrap2 _ cap) by (auto; clear - L; lia).
    destruct (N.ltb_spec cap (off + len h + len t)); [clear - L H; lia |].
    unfold SHARED_SIZE. destruct (N.ltb_spec 4096 (len h)); [clear - Lh H0; lia |].
    destruct (N.ltb_spec cap (off + len h)); [clear - L H1; lia |]. cbn [orb].
    assert (BP : bytes (put tok off (abuf a) (len h)) (off + len h) = bytes tok off ++ h).
    { rewrite bytes_put. f_equal. apply bytes_list; auto. }
    destruct t as [| t0 t].
    + cbn [len length N.of_nat N.ltb N.compare]. eexists; exists [(0, bytes b HASH_SIZE)]. split; [reflexivity |].
      split; [constructor; auto |]. unfold get_token; cbn [s_token s_tok s_locked]. rewrite BP, app_nil_r. auto.
    + destruct (N.ltb_spec 0 (len (t0 :: t))) as [_ | Y]; [| unfold len in Y; cbn [length] in Y; clear - Y; lia].
      destruct (IH (t0 :: t) (abuf a) (off + len h) (len h) (len (t0 :: t)) (put tok off (abuf a) (len h)) (calls ++ [(0, bytes b HASH_SIZE)])) as (s' & l & -> & R & G & U).
      * apply S'; discriminate.
      * discriminate.
      * clear - L; lia.
      * exists s', ((0, bytes b HASH_SIZE) :: l). rewrite <- app_assoc. split; [reflexivity |].
        split; [constructor; auto |]. rewrite BP, <- app_assoc in G. auto.
Qed.

(** Until the first piece every call carries the challenge *)
Lemma hunks_first old cap s : cap <= 2 ^ 62 -> forall answers T b hunk rem tok calls,
  serves old T b answers -> T <> [] ->
  exists l, l = repeat (HASH_SIZE, bytes b HASH_SIZE) (S (busy_first answers)) /\
  if cap <? len T then len T < 2 ^ 63 ->
    exists s', hunks old cap s answers b HASH_SIZE 0 hunk rem tok calls = Ret ENOMEM s' (calls ++ l) /\ s_locked s' = false /\ s_token s' = s_token s
  else exists s' l', hunks old cap s answers b HASH_SIZE 0 hunk rem tok calls = Ret 0 s' (calls ++ l ++ l') /\
    rest_calls l' /\ get_token s' = Some T /\ s_locked s' = false.
Proof.
  intros Hcap. induction answers as [| a rest IH]; intros T b hunk rem tok calls S NE; [contradiction |].
  eexists; split; [reflexivity |].
  cbn [hunks busy_first]. destruct (busy a) eqn:B.
  - destruct (serves_busy _ _ _ _ _ S B) as [X S']. destruct (int32_busy _ B) as [E N].
    rewrite (get_err _ _ _ _ N), E, Z.eqb_refl.
    destruct (IH T (abuf a) hunk rem tok (calls ++ [(HASH_SIZE, bytes b HASH_SIZE)])) as (l & El & R); auto.
    { apply serves_ext with b; auto. }
    rewrite (bytes_ext (abuf a) b) in El by auto.
    replace (repeat (HASH_SIZE, bytes b HASH_SIZE) (Datatypes.S (Datatypes.S (busy_first rest)))) with ((HASH_SIZE, bytes b HASH_SIZE) :: l)
      by (subst l; reflexivity).
    destruct (cap <? len T).
    + intros LT. destruct (R LT) as (s' & -> & U). exists s'. rewrite <- app_assoc. auto.
    + destruct R as (s' & l' & -> & U). exists s', l'. rewrite <- app_assoc. auto.
  - destruct (serves_hunk _ _ _ _ _ S B) as (h & t & -> & Nh & Lh & E & E1 & E2 & X & S').
    rewrite len_app. apply nonempty_len in Nh.
    rewrite (get_ok _ _ _ _ E). change ((0 =? E_RMM_AGAIN)%Z) with false. change ((0 =? 0)%Z) with true. cbn [negb].
    replace (if old then 0 else a2 a) with (len t) by (destruct old; [subst t; reflexivity | auto]).
    rewrite E1. destruct (N.eqb_spec (len h) 0); [contradiction |]. rewrite N.add_0_l.
    destruct (N.ltb_spec cap (len h + len t)) as [L | L].
    + intros LT. rewrite N.mod_small by (apply N.lt_le_trans with (2 ^ 63); [exact LT | vm_compute; discriminate]).
      apply N.ltb_lt in L; rewrite L. eexists; split; [reflexivity |]. auto.
    + rewrite (no_wrap2 _ cap) by auto.
      destruct (N.ltb_spec cap (len h + len t)); [clear - L H; lia |].
      unfold SHARED_SIZE. destruct (N.ltb_spec 4096 (len h)); [clear - Lh H0; lia |].
      destruct (N.ltb_spec cap (len h)); [clear - L H1; lia |]. cbn [orb].
      assert (BP : bytes (put tok 0 (abuf a) (len h)) (len h) = h).
      { rewrite <- (N.add_0_l (len h)) at 2. rewrite bytes_put. apply bytes_list; auto. }
      destruct t as [| t0 t].
      * cbn [len length N.of_nat N.ltb N.compare]. eexists; exists []. split; [reflexivity |].
        split; [constructor |]. unfold get_token; cbn [s_token s_tok s_locked]. rewrite BP, app_nil_r. auto.
      * destruct (N.ltb_spec 0 (len (t0 :: t))) as [_ | Y]; [| unfold len in Y; cbn [length] in Y; clear - Y; lia].
        destruct (hunks_rest old cap s Hcap rest (t0 :: t) (abuf a) (len h) (len h) (len (t0 :: t)) (put tok 0 (abuf a) (len h)) (calls ++ [(HASH_SIZE, bytes b HASH_SIZE)])) as (s' & l & -> & R & G & U).
        -- apply S'; discriminate.
        -- discriminate.
        -- exact L.
        -- exists s', l. rewrite <- app_assoc. split; [reflexivity |]. rewrite BP in G. auto.
Qed.

Definition challenge (s : state) : buf := put (s_shared s) 0 (of_list (s_hash s)) (N.of_nat (length (s_hash s))).
Lemma challenge_bytes s : length (s_hash s) = 32%nat -> bytes (challenge s) HASH_SIZE = s_hash s.
Proof.
  intros L. unfold challenge. rewrite L. change (N.of_nat 32) with HASH_SIZE.
  rewrite <- (N.add_0_l HASH_SIZE) at 2. rewrite bytes_put. cbn [bytes map seq N.to_nat app].
  apply bytes_list; [unfold len; rewrite L; reflexivity | reflexivity].
Qed.
Lemma setup_serves old cap answers s T b : cap <= 2 ^ 62 -> s_loaded s = true -> length (s_hash s) = 32%nat ->
  (forall i, 32 <= i -> b i = s_shared s i) -> (forall i, i < 32 -> b i = nth (N.to_nat i) (s_hash s) 0) ->
  serves old T b answers -> T <> [] -> len T < 2 ^ 63 ->
  exists r s' l, setup_token old cap answers s = Ret r s' (repeat (32, s_hash s) (S (busy_first answers)) ++ l) /\
    Forall (fun c => fst c = 0) l /\ s_locked s' = false /\
    if len T <=? cap then r = 0%Z /\ get_token s' = Some T else r = ENOMEM /\ s_token s' = s_token s.
Proof.
  intros C L H B1 B2 S NE LT. unfold setup_token. rewrite L; cbn [negb]. fold (challenge s).
  destruct (hunks_first old cap s C answers T (challenge s) 0 0 (s_tok s) []) as (l & El & R); auto.
  { apply serves_ext with b; auto. intros i. unfold challenge, put, of_list. rewrite H, N.sub_0_r.
    destruct (N.ltb_spec i (0 + N.of_nat 32)); destruct (N.leb_spec 0 i); cbn [andb]; try (clear - H1; lia);
      [apply B2 | apply B1]; clear - H0; lia. }
  rewrite (challenge_bytes s H) in El. change HASH_SIZE with 32 in El at 1. subst l.
  rewrite N.leb_antisym. destruct (cap <? len T); cbn [negb].
  - destruct (R LT) as (s' & -> & U & V). exists ENOMEM, s', []. rewrite app_nil_r. repeat split; auto.
  - destruct R as (s' & l' & -> & A & G & U). exists 0%Z, s', l'. repeat split; auto.
Qed.

(** All histories *)
Lemma hunks_same old cap s answers : forall b hl off hunk rem tok calls r s' l,
  hunks old cap s answers b hl off hunk rem tok calls = Ret r s' l -> same s s' /\ s_locked s' = false.
Proof.
  induction answers as [| a rest IH]; intros b hl off hunk rem tok calls r s' l; cbn [hunks]; [discriminate |].
  destruct (get_platform_token _ _ _ _) as [[ret h] rm].
  destruct (_ =? _)%Z; [apply IH |]. destruct (negb _); [intros E; inversion E; repeat split |].
  destruct (h =? 0); [discriminate |]. destruct (cap <? _); [intros E; inversion E; repeat split |].
  destruct (_ || _); [discriminate |]. destruct (0 <? rm); [apply IH |]. intros E; inversion E; repeat split.
Qed.
Definition inv (c : crypto) (s : state) : Prop :=
  s_locked s = false /\ (s_token s <> None -> s_loaded s = true) /\
  (s_loaded s = true -> c_import c (s_key s) = true /\ c_encode c (s_key s) = Some (s_pub s) /\ c_sha c (s_pub s) = Some (s_hash s)).
Lemma step_inv c el3 old cap s o r s' l : inv c s -> step c el3 old cap s o = Ret r s' l ->
  inv c s' /\ (s_loaded s = true -> same s s').
Proof.
  intros (L & T & K) E. destruct o as [a | answers]; cbn [step] in E.
  - unfold init_key in E. destruct (s_loaded s) eqn:Ld.
    + inversion E; subst. split; [split; [auto |]; split; rewrite Ld; auto | repeat split].
    + assert (T0 : s_token s = None) by (destruct (s_token s); [discriminate T; discriminate | reflexivity]).
      assert (U : forall b, inv c (unlock s b)).
      { intros b. split; [reflexivity |]. cbn [unlock s_token s_loaded]. rewrite Ld, T0. split; [congruence | discriminate]. }
      split; [| discriminate].
      destruct (_ && _); [inversion E; subst; apply U |]. destruct (negb _); [discriminate |].
      destruct (_ || _); [discriminate |]. destruct (c_import c (bytes (abuf a) (a1 a))) eqn:Ei; cbn [negb] in E; [| inversion E; subst; apply U].
      destruct (c_encode c (bytes (abuf a) (a1 a))) as [p |] eqn:Ee; [| inversion E; subst; apply U].
      destruct (c_sha c p) as [h |] eqn:Eh; inversion E; subst; [| apply U].
      repeat split; cbn; auto; destruct el3; auto.
  - unfold setup_token in E. destruct (s_loaded s) eqn:Ld; cbn [negb] in E.
    + destruct (hunks_same _ _ _ _ _ _ _ _ _ _ _ _ _ _ E) as [(A & B & C & D) G].
      split; [| intros _; repeat split; auto].
      split; [auto |]. rewrite A, B, C, D, Ld. auto.
    + inversion E; subst. split; [split; [auto |]; split; rewrite Ld; auto | discriminate].
Qed.
Lemma reach_inv c el3 old cap s : reach c el3 old cap s -> inv c s.
Proof.
  induction 1 as [| s o r s' l R IH E].
  - split; [reflexivity |]. split; [intros X; contradiction (X eq_refl) | discriminate].
  - exact (proj1 (step_inv _ _ _ _ _ _ _ _ _ IH E)).
Qed.
Lemma key_wiped_ c a s r s' l : s_loaded s = false -> a0 a = 0 -> init_key c false a s = Ret r s' l ->
  forall i, i < a1 a -> s_shared s' i = 0.
Proof.
  intros L E H i Hi. unfold init_key in H. rewrite L, E in H. cbn [N.eqb negb andb] in H.
  destruct (_ || _); [discriminate |].
  assert (P : put (abuf a) 0 (fun _ => 0) (a1 a) i = 0).
  { unfold put. destruct (N.leb_spec 0 i); [| clear - H0; lia]. destruct (N.ltb_spec i (0 + a1 a)); [reflexivity | clear - H1 Hi; lia]. }
  destruct (negb _); [inversion H; subst; exact P |].
  destruct (c_encode c _); [| inversion H; subst; exact P].
  destruct (c_sha c _); inversion H; subst; exact P.
Qed.
