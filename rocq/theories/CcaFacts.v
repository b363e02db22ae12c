(** Proofs about attestation tokens. *)
From Coq Require Import Arith NArith List Bool Lia Ascii String.
From Verif Require Import Cca SpecCbor SpecCca.
Import ListNotations.
Local Open Scope N_scope.

(** Heads *)
Lemma be_length k : forall n, List.length (be k n) = k.
Proof. induction k; intros n; cbn [be]; [reflexivity |]. rewrite app_length, IHk; cbn; lia. Qed.
Lemma be_val k : forall n, n < 256 ^ N.of_nat k -> val (be k n) = n.
Proof.
  unfold val. induction k; intros n H; cbn [be].
  - cbn in *; lia.
  - rewrite fold_left_app, IHk.
    + cbn [fold_left]. rewrite (N.div_mod n 256) at 3 by discriminate. lia.
    + replace (N.of_nat (S k)) with (N.succ (N.of_nat k)) in H by lia. rewrite N.pow_succ_r' in H.
      apply N.div_lt_upper_bound; [discriminate | exact H].
Qed.
Lemma take_app a r n : N.of_nat (List.length a) = n -> take n (a ++ r) = Some (a, r).
Proof.
  intros <-. unfold take. rewrite Nat2N.id, app_length.
  destruct (N.ltb_spec (N.of_nat (List.length a + List.length r)) (N.of_nat (List.length a))); [lia |].
  rewrite firstn_app, Nat.sub_diag, firstn_all, firstn_O, app_nil_r, skipn_app, Nat.sub_diag, skipn_all. reflexivity.
Qed.
Lemma mt_ai mt a : a < 32 -> (mt * 32 + a) / 32 = mt /\ (mt * 32 + a) mod 32 = a.
Proof.
  intros H. rewrite N.add_comm. split.
  - rewrite N.div_add by discriminate. rewrite N.div_small by exact H. lia.
  - rewrite N.mod_add by discriminate. apply N.mod_small, H.
Qed.
Lemma get_head_long mt k j n r : j < 4 -> N.of_nat k = 2 ^ j -> n < 256 ^ N.of_nat k ->
  get_head (((mt * 32 + (24 + j)) :: be k n) ++ r) = Some (mt, n, r).
Proof.
  intros J K L. cbn [get_head app]. destruct (mt_ai mt (24 + j)) as [-> ->]; [lia |].
  destruct (N.ltb_spec (24 + j) 24); [lia |]. destruct (N.ltb_spec (24 + j) 28); [| lia].
  replace (24 + j - 24) with j by lia.
  rewrite take_app by (rewrite be_length; exact K). rewrite be_val by exact L. reflexivity.
Qed.
Lemma get_head_ok mt n r : n < 2 ^ 64 -> get_head (head mt n ++ r) = Some (mt, n, r).
Proof.
  intros H. unfold head.
  destruct (N.ltb_spec n 24) as [L | _].
  - cbn [get_head app]. destruct (mt_ai mt n) as [-> ->]; [lia |].
    destruct (N.ltb_spec n 24); [reflexivity | lia].
  - destruct (N.ltb_spec n (2 ^ 8)) as [L | _]; [apply (get_head_long mt 1 0); [reflexivity | reflexivity | exact L] |].
    destruct (N.ltb_spec n (2 ^ 16)) as [L | _]; [apply (get_head_long mt 2 1); [reflexivity | reflexivity | exact L] |].
    destruct (N.ltb_spec n (2 ^ 32)) as [L | _]; [apply (get_head_long mt 4 2); [reflexivity | reflexivity | exact L] |].
    apply (get_head_long mt 8 3); [reflexivity | reflexivity | exact H].
Qed.

(** The bytes c are the items [is], whatever comes after them *)
Definition dec1 (d : nat) (c : list N) (i : item) : Prop := forall r, decode d (c ++ r) = Some (i, r).
Definition decs (d : nat) (c : list N) (is : list item) : Prop :=
  forall r, many (decode d) (List.length is) (c ++ r) = Some (is, r).
Lemma decs_nil d : decs d [] [].
Proof. intros r; reflexivity. Qed.
Lemma decs_1 d c i : dec1 d c i -> decs d c [i].
Proof. intros H r; cbn [List.length many]; rewrite H; reflexivity. Qed.
Lemma many_app f n m l is r js r' : many f n l = Some (is, r) -> many f m r = Some (js, r') -> many f (n + m) l = Some (is ++ js, r').
Proof.
  revert l is. induction n; intros l is H1 H2; cbn [many Nat.add] in *.
  - inversion H1; subst; exact H2.
  - destruct (f l) as [[i l'] |]; [| discriminate]. destruct (many f n l') as [[is' l''] |] eqn:E; [| discriminate].
    inversion H1; subst. rewrite (IHn _ _ E H2). reflexivity.
Qed.
Lemma decs_app d a b is js : decs d a is -> decs d b js -> decs d (a ++ b) (is ++ js).
Proof.
  intros H1 H2 r. rewrite app_length, <- app_assoc. eapply many_app; [apply H1 | apply H2].
Qed.
Lemma dec_uint d n : n < 2 ^ 64 -> dec1 (S d) (head 0 n) (UInt n).
Proof. intros H r. cbn [decode]. rewrite get_head_ok by exact H. reflexivity. Qed.
Lemma dec_nint d n : n < 2 ^ 64 -> dec1 (S d) (head 1 n) (NInt n).
Proof. intros H r. cbn [decode]. rewrite get_head_ok by exact H. reflexivity. Qed.
Lemma dec_bytes d b : len b < 2 ^ 64 -> dec1 (S d) (head 2 (len b) ++ b) (Bytes b).
Proof.
  intros H r. cbn [decode]. rewrite <- app_assoc, get_head_ok by exact H. cbn [N.eqb Pos.eqb].
  rewrite take_app by reflexivity. reflexivity.
Qed.
Lemma dec_text d b : len b < 2 ^ 64 -> dec1 (S d) (head 3 (len b) ++ b) (Text b).
Proof.
  intros H r. cbn [decode]. rewrite <- app_assoc, get_head_ok by exact H. cbn [N.eqb Pos.eqb].
  rewrite take_app by reflexivity. reflexivity.
Qed.
Lemma dec_array d n c is : n < 2 ^ 64 -> n = N.of_nat (List.length is) -> decs d c is -> dec1 (S d) (head 4 n ++ c) (Array is).
Proof.
  intros H -> D r. cbn [decode]. rewrite <- app_assoc, get_head_ok by exact H. cbn [N.eqb Pos.eqb].
  rewrite Nat2N.id, D. reflexivity.
Qed.
Lemma dec_map d n c is : n < 2 ^ 64 -> 2 * n = N.of_nat (List.length is) -> decs d c is -> dec1 (S d) (head 5 n ++ c) (Map (pairs is)).
Proof.
  intros H E D r. cbn [decode]. rewrite <- app_assoc, get_head_ok by exact H. cbn [N.eqb Pos.eqb].
  rewrite E, Nat2N.id, D. reflexivity.
Qed.
Lemma dec_tag d t c i : t < 2 ^ 64 -> dec1 d c i -> dec1 (S d) (head 6 t ++ c) (Tag t i).
Proof.
  intros H D r. cbn [decode]. rewrite <- app_assoc, get_head_ok by exact H. cbn [N.eqb Pos.eqb]. rewrite D. reflexivity.
Qed.
Lemma is_item_of l i : dec1 8 l i -> is_item l i.
Proof. intros H. unfold is_item. rewrite <- (app_nil_r l) at 1. apply H. Qed.

(** The bytes of the parts of a token *)
Definition uint (n : N) := head 0 n.
Definition bstr (b : list N) := head 2 (len b) ++ b.
Definition tstr (b : list N) := head 3 (len b) ++ b.
Definition rems (n : nat) (ms : list (list N)) : list (list N) := map (fun m => bstr (firstn n m)) ms.
Definition parts (q : claims) (p t : list N) (n : nat) (m0 : list N) (ms : list (list N)) : list (list N) :=
  [uint 10; bstr (List.concat (map le64 (q_regs q))); uint 44235; bstr (q_rpv q); uint 44237; bstr p;
   uint 44236; tstr t; uint 44240; tstr (str "sha-256"); uint 265; tstr CCA_REALM_PROFILE_STR;
   uint 44238; bstr (firstn n m0); uint 44239; head 4 4 ++ List.concat (rems n ms)].
Definition payload (q : claims) (p t : list N) (n : nat) (m0 : list N) (ms : list (list N)) : list N :=
  head 5 8 ++ List.concat (parts q p t n m0 ms).
Lemma decs_concat d ls is : Forall2 (dec1 d) ls is -> decs d (List.concat ls) is.
Proof.
  induction 1 as [| l i ls is H F IH]; cbn [List.concat]; [apply decs_nil |].
  apply (decs_app d l (List.concat ls) [i] is); [apply decs_1, H | exact IH].
Qed.

(** What the code makes is these bytes *)
#[local] Opaque head str firstn le64.
Definition alg_text (q : claims) : list N := if q_alg q =? 0 then str "sha-256" else str "sha-512".
Definition the_payload (q : claims) (p : list N) : list N :=
  payload q p (alg_text q) (meas_bytes q) (nth 0 (q_meas q) []) (tl (q_meas q)).
Definition hdr : list N := [68; 161; 1; 56; 34; 160].
Definition signing (P : list N) : ctx := mkCtx Sign (mkEnc (hdr ++ bstr P) 3 [(4, [210], 0)] false) P.
Lemma list5 (l : list (list N)) : List.length l = 5%nat -> exists a b c d e, l = [a; b; c; d; e].
Proof. destruct l as [| a [| b [| c [| d [| e [|]]]]]]; try discriminate; eauto 9. Qed.
Definition adds (ls : list (list N)) (e : enc) : enc := fold_left (fun e b => add b e) ls e.
Lemma adds_eq ls : forall e, adds ls e = mkEnc (e_out e ++ List.concat ls) (e_cnt e + N.of_nat (List.length ls)) (e_stack e) (e_err e).
Proof.
  induction ls as [| l ls IH]; intros [o c s r]; cbn [adds fold_left List.concat List.length e_out e_cnt e_stack e_err].
  - rewrite app_nil_r, N.add_0_r. reflexivity.
  - unfold adds in IH. rewrite IH. unfold add; cbn [e_out e_cnt e_stack e_err]. rewrite <- app_assoc. f_equal; lia.
Qed.
Lemma close_eq mt o c o' c' s r : close_ mt (mkEnc o c ((mt, o', c') :: s) r)
  = mkEnc (o' ++ head mt (if mt =? 5 then c / 2 else if mt =? 4 then c else len o) ++ o) (c' + 1) s r.
Proof. unfold close_; cbn [e_stack e_out e_cnt e_err]. rewrite N.eqb_refl. reflexivity. Qed.
Lemma start_eq : encode_start = mkEnc hdr 2 [(4, [210], 0)] false.
Proof. vm_compute. reflexivity. Qed.
Lemma rems_eq n ms e : add_rems n ms e = adds (rems (N.to_nat n) ms) e.
Proof. unfold add_rems, adds, rems. revert e. induction ms as [| m ms IH]; intros e; cbn [fold_left map]; [reflexivity | apply IH]. Qed.
Lemma create_body q p t t' n ms m0 : List.length ms = 4%nat ->
  close_ 5 (close_ 4 (add_rems n ms (open_ 4 (add_uint CCA_REALM_EXTENSIBLE_MEASUREMENTS
   (add_bytes (firstn (N.to_nat n) m0) (add_uint CCA_REALM_INITIAL_MEASUREMENT
   (add_text CCA_REALM_PROFILE_STR (add_uint CCA_REALM_PROFILE
   (add_text t' (add_uint CCA_REALM_PUB_KEY_HASH_ALGO_ID
   (add_text t (add_uint CCA_REALM_HASH_ALGM_ID
   (add_bytes p (add_uint CCA_REALM_PUB_KEY
   (add_bytes (q_rpv q) (add_uint CCA_REALM_PERSONALIZATION_VALUE
   (add_bytes (List.concat (map le64 (q_regs q))) (add_uint CCA_REALM_CHALLENGE
      (open_ 5 (open_ 2 encode_start))))))))))))))))))))
  = mkEnc (head 5 8 ++ List.concat [uint 10; bstr (List.concat (map le64 (q_regs q))); uint 44235; bstr (q_rpv q); uint 44237; bstr p;
   uint 44236; tstr t; uint 44240; tstr t'; uint 265; tstr CCA_REALM_PROFILE_STR;
   uint 44238; bstr (firstn (N.to_nat n) m0); uint 44239; head 4 4 ++ List.concat (rems (N.to_nat n) ms)]) 1
     [(2, hdr, 2); (4, [210], 0)] false.
Proof.
  intros L. rewrite start_eq.
  match goal with |- close_ 5 (close_ 4 (add_rems n ms (open_ 4 ?e))) = _ =>
    transitivity (close_ 5 (close_ 4 (add_rems n ms (open_ 4 (adds [uint 10; bstr (List.concat (map le64 (q_regs q))); uint 44235; bstr (q_rpv q); uint 44237; bstr p;
   uint 44236; tstr t; uint 44240; tstr t'; uint 265; tstr CCA_REALM_PROFILE_STR;
   uint 44238; bstr (firstn (N.to_nat n) m0); uint 44239] (open_ 5 (open_ 2 (mkEnc hdr 2 [(4, [210], 0)] false)))))))) end.
  { cbn [adds fold_left]. unfold add_bytes, add_text, add_uint, bstr, tstr, uint. reflexivity. }
  rewrite adds_eq, rems_eq, adds_eq. cbn [open_ e_out e_cnt e_stack e_err app List.length].
  unfold rems at 2. rewrite map_length, L.
  rewrite close_eq. rewrite close_eq.
  change (if 4 =? 5 then (0 + N.of_nat 4) / 2 else if 4 =? 4 then 0 + N.of_nat 4 else len (List.concat (rems (N.to_nat n) ms))) with 4.
  cbn [N.eqb Pos.eqb app].
  change ((0 + N.of_nat 15 + 1) / 2) with 8. change (0 + 1) with 1.
  f_equal. f_equal. cbn [List.concat]. rewrite !app_nil_r, <- !app_assoc. reflexivity.
Qed.
Lemma create_ok q p c : t_state c = Init -> wf_claims q ->
  realm_token_create q true (Some p) c = COk (signing (the_payload q p)).
Proof.
  intros St (A & L & _). destruct (list5 _ L) as (m0 & m1 & m2 & m3 & m4 & E).
  unfold realm_token_create. rewrite St, L. change (negb (N.of_nat 5 =? 5)) with false. cbn iota. cbn [negb].
  assert (L4 : List.length (tl (q_meas q)) = 4%nat) by (rewrite E; reflexivity).
  assert (X : (q_alg q =? 0) = true /\ alg_text q = str "sha-256" /\ meas_bytes q = N.to_nat 32 \/
              (q_alg q =? 0) = false /\ (q_alg q =? 1) = true /\ alg_text q = str "sha-512" /\ meas_bytes q = N.to_nat 64).
  { unfold alg_text, meas_bytes. destruct A as [-> | ->]; [left | right]; auto. }
  unfold hash_text, measurement_size. change (0 =? 0) with true. cbn iota.
  destruct X as [(-> & T & M) | (-> & -> & T & M)]; cbn iota; rewrite create_body by exact L4;
    unfold signing, the_payload, payload, parts; rewrite T, M; cbn [e_out]; rewrite close_eq; reflexivity.
Qed.

(** Lengths *)
Lemma len_app (a b : list N) : len (a ++ b) = len a + len b.
Proof. unfold len; rewrite app_length; lia. Qed.
#[local] Transparent head.
Lemma head_len mt n : n < 2 ^ 16 -> len (head mt n) <= 3 /\ (n < 24 -> len (head mt n) = 1) /\ (n < 256 -> len (head mt n) <= 2).
Proof.
  intros H. unfold head. destruct (N.ltb_spec n 24).
  - cbn; repeat split; intros; lia.
  - destruct (N.ltb_spec n (2 ^ 8)) as [L | L].
    + change (len ((mt * 32 + 24) :: be 1 n)) with 2. repeat split; intros; lia.
    + destruct (N.ltb_spec n (2 ^ 16)); [| contradiction (N.lt_irrefl n); eapply N.lt_le_trans; eassumption].
      change (len ((mt * 32 + 25) :: be 2 n)) with 3. change (2 ^ 8) with 256 in L. repeat split; intros; lia.
Qed.
#[local] Opaque head.
Lemma bstr_len b : len b <= 255 -> len (bstr b) <= len b + 2.
Proof.
  intros H. unfold bstr. rewrite len_app.
  destruct (head_len 2 (len b)) as (_ & _ & K); [apply N.le_lt_trans with 255; [exact H | reflexivity] |].
  specialize (K ltac:(lia)). lia.
Qed.
Lemma bstr_len3 b : len b < 2 ^ 16 -> len (bstr b) <= len b + 3.
Proof. intros H. unfold bstr. rewrite len_app. destruct (head_len 2 (len b) H) as (K & _). lia. Qed.
#[local] Transparent le64.
Lemma chal_len l : len (List.concat (map le64 l)) = 8 * N.of_nat (List.length l).
Proof.
  induction l as [| v l IH]; cbn [map List.concat List.length]; [reflexivity |].
  rewrite len_app, IH. unfold len, le64. rewrite rev_length, be_length. lia.
Qed.
#[local] Opaque le64.
#[local] Transparent firstn.
Lemma firstn_len n (m : list N) : len (firstn n m) <= N.of_nat n.
Proof. unfold len. rewrite firstn_length. lia. Qed.
#[local] Opaque firstn.
Lemma meas_le q : (meas_bytes q <= 64)%nat.
Proof. unfold meas_bytes. destruct (_ =? _); lia. Qed.
Lemma rem_len q m : len (bstr (firstn (meas_bytes q) m)) <= 66.
Proof.
  pose proof (firstn_len (meas_bytes q) m). pose proof (meas_le q).
  pose proof (bstr_len (firstn (meas_bytes q) m) ltac:(lia)). lia.
Qed.
#[local] Transparent str.
Lemma text_len q : len (tstr (alg_text q)) = 8 /\ len (tstr (str "sha-256")) = 8 /\ len (tstr CCA_REALM_PROFILE_STR) = 30 /\
  len (alg_text q) < 2 ^ 64 /\ len (str "sha-256") < 2 ^ 64 /\ len CCA_REALM_PROFILE_STR < 2 ^ 64.
Proof. unfold alg_text. destruct (_ =? _); vm_compute; auto 9. Qed.
#[local] Opaque str.
Lemma payload_len q p : wf_claims q -> wf_pub p -> len (the_payload q p) <= 663.
Proof.
  intros (_ & L & _ & R & G) Hp. destruct (list5 _ L) as (m0 & m1 & m2 & m3 & m4 & E).
  unfold the_payload, payload, parts. rewrite E. cbn [nth tl rems map List.concat]. rewrite !len_app.
  destruct (text_len q) as (T1 & T2 & T3 & _). rewrite T1, T2, T3.
  pose proof (rem_len q m0); pose proof (rem_len q m1); pose proof (rem_len q m2); pose proof (rem_len q m3); pose proof (rem_len q m4).
  pose proof (chal_len (q_regs q)) as C. rewrite G in C.
  pose proof (bstr_len (List.concat (map le64 (q_regs q))) ltac:(rewrite C; cbn; lia)) as C2. rewrite C in C2.
  assert (RL : len (q_rpv q) = 64) by (unfold len; rewrite R; reflexivity).
  pose proof (bstr_len (q_rpv q) ltac:(rewrite RL; lia)) as R2. rewrite RL in R2.
  unfold wf_pub in Hp. pose proof (bstr_len p ltac:(lia)) as P2.
  assert (HH : len (head 5 8) = 1 /\ len (uint 10) = 1 /\ len (uint 44235) = 3 /\ len (uint 44237) = 3 /\ len (uint 44236) = 3 /\
    len (uint 44240) = 3 /\ len (uint 265) = 3 /\ len (uint 44238) = 3 /\ len (uint 44239) = 3 /\ len (head 4 4) = 1) by (vm_compute; auto 12).
  destruct HH as (-> & -> & -> & -> & -> & -> & -> & -> & -> & ->). change (len []) with 0. change (8 * N.of_nat 8) with 64 in C2.
  clear - H H0 H1 H2 H3 C2 R2 P2 Hp. lia.
Qed.

(** Contents *)
#[local] Transparent le64.
Lemma le64_eq v : le64 v = map (fun k => v / 256 ^ k mod 256) [0; 1; 2; 3; 4; 5; 6; 7].
Proof.
  unfold le64. cbn [be rev app map]. rewrite !N.div_div by discriminate.
  change (256 ^ 0) with 1. rewrite N.div_1_r. reflexivity.
Qed.
#[local] Opaque le64.
Lemma challenge_eq l : List.length l = 8%nat -> challenge l = List.concat (map le64 l).
Proof.
  intros L. do 8 (destruct l as [| ? l]; [discriminate L |]). destruct l; [| discriminate L].
  cbn [map List.concat]. rewrite !le64_eq. reflexivity.
Qed.
Lemma small l n : len l <= n -> n < 2 ^ 64 -> len l < 2 ^ 64.
Proof. intros; eapply N.le_lt_trans; eassumption. Qed.
Lemma payload_item q p : wf_claims q -> wf_pub p -> is_item (the_payload q p) (realm_claims q p).
Proof.
  intros (A & L & _ & R & G) Hp. destruct (list5 _ L) as (m0 & m1 & m2 & m3 & m4 & E).
  apply is_item_of. unfold the_payload, payload. destruct (text_len q) as (_ & _ & _ & T1 & T2 & T3).
  assert (FM : forall m, len (firstn (meas_bytes q) m) < 2 ^ 64).
  { intros m. apply small with 64; [| reflexivity]. pose proof (firstn_len (meas_bytes q) m). pose proof (meas_le q). lia. }
  assert (CL : len (List.concat (map le64 (q_regs q))) < 2 ^ 64) by (rewrite chal_len, G; reflexivity).
  assert (RL : len (q_rpv q) < 2 ^ 64) by (unfold len; rewrite R; reflexivity).
  assert (PL : len p < 2 ^ 64) by (apply small with 129; [exact Hp | reflexivity]).
  replace (realm_claims q p) with (Map (pairs [UInt 10; Bytes (List.concat (map le64 (q_regs q))); UInt 44235; Bytes (q_rpv q); UInt 44237; Bytes p;
    UInt 44236; Text (str (if q_alg q =? 0 then "sha-256" else "sha-512")); UInt 44240; Text (str "sha-256");
    UInt 265; Text CCA_REALM_PROFILE_STR; UInt 44238; Bytes (firstn (meas_bytes q) (nth 0 (q_meas q) []));
    UInt 44239; Array (map (fun k => Bytes (firstn (meas_bytes q) (nth k (q_meas q) []))) [1; 2; 3; 4]%nat)])) by (unfold realm_claims; rewrite (challenge_eq _ G); reflexivity).
  replace (str (if q_alg q =? 0 then "sha-256" else "sha-512")) with (alg_text q) by (unfold alg_text; destruct (q_alg q =? 0); reflexivity).
  apply dec_map; [reflexivity | reflexivity |]. apply decs_concat. unfold parts.
  repeat (apply Forall2_cons; [first [apply dec_uint; reflexivity | apply dec_bytes; auto; apply FM | apply dec_text; auto | idtac] |]);
    [| apply Forall2_nil].
  rewrite E. cbn [tl rems map nth]. apply dec_array; [reflexivity | reflexivity |]. apply decs_concat.
  repeat (apply Forall2_cons; [apply dec_bytes, FM |]). apply Forall2_nil.
Qed.

(** The realm token *)
Definition realm_token (P s : list N) : list N := [210] ++ head 4 4 ++ (hdr ++ bstr P) ++ bstr s.
#[local] Transparent head.
Lemma hdr_item : dec1 6 (bstr [161; 1; 56; 34]) (Bytes [161; 1; 56; 34]) /\ dec1 6 (head 5 0) (Map []).
Proof. split; [apply dec_bytes; reflexivity |]. intros r. reflexivity. Qed.
Lemma hdr_eq : hdr = bstr [161; 1; 56; 34] ++ head 5 0 /\ [210] = head 6 18.
Proof. split; vm_compute; reflexivity. Qed.
#[local] Opaque head.
Lemma realm_token_item P s : len P < 2 ^ 64 -> len s < 2 ^ 64 -> is_item (realm_token P s) (sign1 P s).
Proof.
  intros HP Hs. apply is_item_of. unfold realm_token, sign1. destruct hdr_eq as [-> ->]. destruct hdr_item as [D1 D2].
  apply dec_tag; [reflexivity |]. 
  apply dec_array; [reflexivity | reflexivity |].
  change ([Bytes [161; 1; 56; 34]; Map []; Bytes P; Bytes s]) with ((([Bytes [161; 1; 56; 34]] ++ [Map []]) ++ [Bytes P]) ++ [Bytes s]).
  apply decs_app; [apply decs_app; [apply decs_app |] |]; apply decs_1; auto; apply dec_bytes; auto.
Qed.
Lemma realm_token_len P s : len P <= 663 -> List.length s = 96%nat -> len (realm_token P s) <= 772.
Proof.
  intros HP Hs. unfold realm_token. rewrite !len_app.
  assert (Ls : len s = 96) by (unfold len; rewrite Hs; reflexivity).
  pose proof (bstr_len s ltac:(rewrite Ls; lia)). rewrite Ls in H.
  pose proof (bstr_len3 P ltac:(eapply N.le_lt_trans; [exact HP | reflexivity])).
  change (len [210]) with 1. change (len (head 4 4)) with 1. change (len hdr) with 6. clear - H H0 HP. lia.
Qed.
Lemma sign_ok P s : len P <= 663 -> List.length s = 96%nat ->
  exists e, realm_token_sign (Sig s) (signing P) = (mkCtx Create e P, Some (realm_token P s)).
Proof.
  intros HP Hs. unfold realm_token_sign, signing. cbn [t_state t_enc t_payload].
  unfold add_bytes, add. cbn [e_out e_cnt e_stack e_err]. rewrite close_eq. 
  change (if 4 =? 5 then (3 + 1) / 2 else if 4 =? 4 then 3 + 1 else len ((hdr ++ bstr P) ++ head 2 (len s) ++ s)) with 4.
  unfold finish. cbn [e_out e_err e_stack].
  pose proof (realm_token_len P s HP Hs) as L. unfold realm_token, bstr in L. unfold bstr.
  destruct (N.ltb_spec RMM_REALM_TOKEN_BUF_SIZE (len ([210] ++ head 4 4 ++ (hdr ++ head 2 (len P) ++ P) ++ head 2 (len s) ++ s))) as [X | _].
  - exfalso. unfold RMM_REALM_TOKEN_BUF_SIZE in X. clear - L X. lia.
  - eexists. unfold realm_token, bstr. reflexivity.
Qed.

(** The CCA token *)
Definition cca_token (plat realm : list N) : list N := head 6 399 ++ head 5 2 ++ List.concat [uint 44234; bstr plat; uint 44241; bstr realm].
Lemma cca_ok size plat realm c : t_state c = Create ->
  cca_token_create size (Some plat) realm c =
    if size <? len (cca_token plat realm) then (c, None) else (mkCtx NotStarted (t_enc c) (t_payload c), Some (cca_token plat realm)).
Proof.
  intros St. unfold cca_token_create. rewrite St.
  transitivity (match finish size (close_ 5 (adds [uint 44234; bstr plat; uint 44241; bstr realm] (open_ 5 (add_tag TAG_CCA_TOKEN enc_init)))) with
                | FOk t => (mkCtx NotStarted (t_enc c) (t_payload c), Some t) | _ => (c, None) end).
  { cbn [adds fold_left]. unfold add_bytes, add_uint, bstr, uint. reflexivity. }
  rewrite adds_eq. unfold open_, add_tag, enc_init. cbn [e_out e_cnt e_stack e_err app]. rewrite close_eq.
  change (if 5 =? 5 then (0 + N.of_nat (List.length [uint 44234; bstr plat; uint 44241; bstr realm])) / 2 else
      if 5 =? 4 then 0 + N.of_nat (List.length [uint 44234; bstr plat; uint 44241; bstr realm]) else len (List.concat [uint 44234; bstr plat; uint 44241; bstr realm])) with 2.
  unfold finish. cbn [e_out e_err e_stack]. change (head 6 TAG_CCA_TOKEN) with (head 6 399). fold (cca_token plat realm).
  destruct (size <? len (cca_token plat realm)); reflexivity.
Qed.
Lemma cca_item plat realm : len plat < 2 ^ 64 -> len realm < 2 ^ 64 -> is_item (cca_token plat realm) (cca plat realm).
Proof.
  intros Hp Hr. apply is_item_of. unfold cca_token, cca. apply dec_tag; [reflexivity |].
  change [(UInt 44234, Bytes plat); (UInt 44241, Bytes realm)] with (pairs [UInt 44234; Bytes plat; UInt 44241; Bytes realm]).
  apply dec_map; [reflexivity | reflexivity |]. apply decs_concat.
  repeat (apply Forall2_cons; [first [apply dec_uint; reflexivity | apply dec_bytes; auto] |]). apply Forall2_nil.
Qed.
Lemma cca_len plat realm : len plat < 2 ^ 16 -> len realm < 2 ^ 16 -> len (cca_token plat realm) <= len plat + len realm + 16.
Proof.
  intros Hp Hr. unfold cca_token. cbn [List.concat]. rewrite !len_app.
  pose proof (bstr_len3 _ Hp); pose proof (bstr_len3 _ Hr).
  assert (H1 : len (head 6 399) = 3 /\ len (head 5 2) = 1 /\ len (uint 44234) = 3 /\ len (uint 44241) = 3) by (vm_compute; auto).
  destruct H1 as (-> & -> & -> & ->). change (len []) with 0. clear - H H0. lia.
Qed.

(** Histories *)
Definition quiet : list op -> Prop := Forall (fun o => ~ is_init o).
Definition asked0 (ops : list op) (q : claims) (p : list N) : Prop :=
  exists pre heap mid, ops = pre ++ OInit q heap true (Some p) :: mid /\ quiet mid.
Definition inv (ops : list op) (s : sys) : Prop :=
  match t_state (y_ctx s) with
  | NotStarted => True
  | Init => True
  | Sign => exists q p, asked0 ops q p /\ wf_claims q /\ wf_pub p /\ y_ctx s = signing (the_payload q p)
  | Create => exists q p x, asked ops q p x /\ wf_claims q /\ wf_pub p /\ List.length x = 96%nat /\
                y_realm s = realm_token (the_payload q p) x
  end.
Lemma asked0_snoc ops o q p : asked0 ops q p -> ~ is_init o -> asked0 (ops ++ [o]) q p.
Proof.
  intros (pre & h & mid & -> & Q) N0. exists pre, h, (mid ++ [o]). rewrite <- app_assoc. split; [reflexivity |].
  apply Forall_app; split; [exact Q | constructor; [exact N0 | constructor]].
Qed.
Lemma asked_snoc ops o q p x : asked ops q p x -> ~ is_init o -> asked (ops ++ [o]) q p x.
Proof.
  intros (pre & h & mid & post & -> & Q) N0. exists pre, h, mid, (post ++ [o]). split.
  - rewrite <- app_assoc. cbn [app]. f_equal. f_equal. rewrite <- app_assoc. reflexivity.
  - rewrite app_assoc. apply Forall_app; split; [exact Q | constructor; [exact N0 | constructor]].
Qed.
Lemma asked_sign ops q p x : asked0 ops q p -> asked (ops ++ [OSign (Sig x)]) q p x.
Proof.
  intros (pre & h & mid & -> & Q). exists pre, h, mid, []. rewrite app_nil_r, <- app_assoc. split; [reflexivity | exact Q].
Qed.
Lemma inv_keep ops o s s' : inv ops s -> ~ is_init o -> y_ctx s' = y_ctx s -> y_realm s' = y_realm s -> inv (ops ++ [o]) s'.
Proof.
  unfold inv. intros I N0 E1 E2. rewrite E1, E2. destruct (t_state (y_ctx s)); auto.
  - destruct I as (q & p & A & K). exists q, p. split; [apply asked0_snoc; assumption | exact K].
  - destruct I as (q & p & x & A & K). exists q, p, x. split; [apply asked_snoc; assumption | exact K].
Qed.
Lemma signing_state P : t_state (signing P) = Sign.
Proof. reflexivity. Qed.
Lemma init_step ops size s q heap signer pub : wf_op (OInit q heap signer pub) ->
  inv (ops ++ [OInit q heap signer pub]) (fst (step size s (OInit q heap signer pub))) /\
  (snd (step size s (OInit q heap signer pub)) = Nothing \/ snd (step size s (OInit q heap signer pub)) = Done).
Proof.
  intros [W Wp]. cbn [step].
  assert (K : forall c, t_state c = Init -> forall r, r = match realm_token_create q signer pub c with
        | COk c => (mkSys c [], Done) | CErr => (mkSys c [], Nothing) | CAssert => (s, Stopped) end ->
      inv (ops ++ [OInit q heap signer pub]) (fst r) /\ (snd r = Nothing \/ snd r = Done)).
  { intros c St r ->.
    assert (E : signer = false \/ pub = None -> realm_token_create q signer pub c = CErr).
    { intros H. unfold realm_token_create. rewrite St. destruct W as (_ & L & _). rewrite L.
      destruct signer; [| reflexivity]. destruct H as [H | ->]; [discriminate | reflexivity]. }
    destruct signer; [destruct pub as [p |] |].
    - rewrite (create_ok q p c St W). cbn [fst snd]. split; [| auto].
      unfold inv. cbn [y_ctx]. rewrite signing_state. exists q, p. split; [| auto]. exists ops, heap, []. split; [reflexivity | constructor].
    - rewrite E by auto. cbn [fst snd]. split; [| auto]. unfold inv; cbn [y_ctx]; rewrite St; exact Logic.I.
    - rewrite E by auto. cbn [fst snd]. split; [| auto]. unfold inv; cbn [y_ctx]; rewrite St; exact Logic.I. }
  unfold ctx_init. destruct (t_state (y_ctx s)) eqn:St;
    try (destruct heap; [eapply K; [| reflexivity]; reflexivity | cbn; split; [exact Logic.I | auto]]).
  eapply K; [exact St | reflexivity].
Qed.
Lemma step_inv size ops s o : inv ops s -> wf_op o -> inv (ops ++ [o]) (fst (step size s o)) /\ snd (step size s o) <> Stopped.
Proof.
  intros I W. destruct o as [q heap signer pub | g | plat].
  - destruct (init_step ops size s q heap signer pub W) as [K [-> | ->]]; split; auto; discriminate.
  - assert (NI : ~ is_init (OSign g)) by (intros []). cbn [step].
    destruct (t_state (y_ctx s)) eqn:St;
      try (unfold realm_token_sign; rewrite St; cbn [fst snd]; split; [| discriminate]; eapply inv_keep; eauto; fail).
    destruct g as [| | x];
      try (unfold realm_token_sign; rewrite St; cbn [fst snd]; split; [| discriminate]; eapply inv_keep; eauto; fail).
    unfold inv in I; rewrite St in I. destruct I as (q & p & EL & Wq & Wp & EC).
    cbn [wf_op] in W. rewrite EC. destruct (sign_ok (the_payload q p) x (payload_len q p Wq Wp) W) as (e & ->).
    cbn [fst snd]. split; [| discriminate]. unfold inv; cbn [y_ctx y_realm t_state]. exists q, p, x.
    split; [apply asked_sign, EL | auto].
  - assert (NI : ~ is_init (OCreate plat)) by (intros []). cbn [step].
    destruct (t_state (y_ctx s)) eqn:St;
      try (unfold cca_token_create; rewrite St; cbn [fst snd]; split; [| discriminate]; eapply inv_keep; eauto; fail).
    destruct plat as [p |].
    + rewrite (cca_ok size p (y_realm s) (y_ctx s) St). destruct (_ <? _); cbn [fst snd]; split; try discriminate.
      * eapply inv_keep; eauto.
      * exact Logic.I.
    + unfold cca_token_create; rewrite St; cbn [fst snd]; split; [| discriminate]; eapply inv_keep; eauto.
Qed.
Lemma run_snoc size ops o : run size (ops ++ [o]) = fst (step size (run size ops) o).
Proof. unfold run. rewrite fold_left_app. reflexivity. Qed.
Lemma run_inv size ops : Forall wf_op ops -> inv ops (run size ops).
Proof.
  induction ops as [| o ops IH] using rev_ind; intros F.
  - exact Logic.I.
  - rewrite run_snoc. apply Forall_app in F. destruct F as [F1 F2]. inversion F2; subst. apply step_inv; auto.
Qed.
Lemma no_stop size ops o : Forall wf_op ops -> wf_op o -> snd (step size (run size ops) o) <> Stopped.
Proof. intros F W. apply (step_inv size ops); [apply run_inv, F | exact W]. Qed.
Lemma token_state size s o t : snd (step size s o) = Token t ->
  t_state (y_ctx s) = Create /\ t_state (y_ctx (fst (step size s o))) = NotStarted /\
  exists plat, o = OCreate (Some plat) /\ t = cca_token plat (y_realm s) /\ len t <= size.
Proof.
  destruct o as [q h sg pub | g | plat]; cbn [step].
  - destruct (ctx_init h (y_ctx s)) as [c []]; [destruct (realm_token_create q sg pub c) |]; discriminate.
  - destruct (realm_token_sign g (y_ctx s)) as [c []]; discriminate.
  - destruct (t_state (y_ctx s)) eqn:St; try (unfold cca_token_create; rewrite St; discriminate).
    destruct plat as [p |]; [| unfold cca_token_create; rewrite St; discriminate].
    rewrite (cca_ok size p (y_realm s) (y_ctx s) St).
    destruct (N.ltb_spec size (len (cca_token p (y_realm s)))) as [X | X]; [discriminate |].
    cbn [fst snd]. intros [= <-]. split; [reflexivity |]. split; [reflexivity |]. exists p. auto.
Qed.
Lemma realm_small q p x : wf_claims q -> wf_pub p -> List.length x = 96%nat -> len (realm_token (the_payload q p) x) <= 772.
Proof. intros. apply realm_token_len; [apply payload_len; assumption | assumption]. Qed.
Lemma token_contents size ops o t : Forall wf_op ops -> wf_op o -> snd (step size (run size ops) o) = Token t ->
  exists plat q p x, o = OCreate (Some plat) /\ asked ops q p x /\ token_of t plat q p x /\ len t <= size.
Proof.
  intros F W T. destruct (token_state _ _ _ _ T) as (St & _ & plat & -> & -> & L).
  pose proof (run_inv size ops F) as I. unfold inv in I. rewrite St in I. destruct I as (q & p & x & A & Wq & Wp & Wx & E).
  exists plat, q, p, x. split; [reflexivity |]. split; [exact A |]. split; [| exact L].
  cbn [wf_op] in W. exists (the_payload q p), (y_realm (run size ops)). split; [| split].
  - apply cca_item; [eapply N.lt_trans; [exact W | reflexivity] |]. rewrite E.
    eapply N.le_lt_trans; [apply realm_small; assumption | reflexivity].
  - rewrite E. apply realm_token_item.
    + eapply N.le_lt_trans; [apply payload_len; assumption | reflexivity].
    + unfold len; rewrite Wx; reflexivity.
  - apply payload_item; assumption.
Qed.
(** At most one token for a request *)
Lemma idle size s : t_state (y_ctx s) = NotStarted -> forall more, quiet more ->
  t_state (y_ctx (fold_left (fun s o => fst (step size s o)) more s)) = NotStarted.
Proof.
  intros St more; revert s St. induction more as [| o more IH]; intros s St Q; [exact St |]. inversion Q; subst. cbn [fold_left].
  apply IH; [| assumption]. destruct o as [q h sg pub | g | plat]; [destruct H1; exact Logic.I | |]; cbn [step].
  - unfold realm_token_sign. rewrite St. exact St.
  - unfold cca_token_create. rewrite St. exact St.
Qed.
Lemma idle_out size s o : t_state (y_ctx s) = NotStarted -> ~ is_init o -> snd (step size s o) = Nothing.
Proof.
  intros St NI. destruct o as [q h sg pub | g | plat]; [destruct NI; exact Logic.I | |]; cbn [step].
  - unfold realm_token_sign. rewrite St. reflexivity.
  - unfold cca_token_create. rewrite St. reflexivity.
Qed.
Lemma token_once size ops o t more o' : snd (step size (run size ops) o) = Token t ->
  Forall (fun o => ~ is_init o) (more ++ [o']) -> snd (step size (run size (ops ++ [o] ++ more)) o') = Nothing.
Proof.
  intros T Q. apply Forall_app in Q. destruct Q as [Q1 Q2]. inversion Q2; subst.
  destruct (token_state _ _ _ _ T) as (_ & St & _). apply idle_out; [| assumption].
  unfold run in *. rewrite !fold_left_app. cbn [fold_left]. apply idle; assumption.
Qed.
(** A token is made *)
Lemma run_app size a b : run size (a ++ b) = fold_left (fun s o => fst (step size s o)) b (run size a).
Proof. unfold run. apply fold_left_app. Qed.
Lemma waits size P r n : fold_left (fun s o => fst (step size s o)) (repeat (OSign InProgress) n) (mkSys (signing P) r) = mkSys (signing P) r.
Proof. induction n as [| n IH]; [reflexivity |]. cbn [repeat fold_left]. exact IH. Qed.
Lemma token_done size ops q p n x plat : wf_claims q -> wf_pub p -> List.length x = 96%nat -> len plat < 2 ^ 16 -> len plat + 788 <= size ->
  exists t, snd (step size (run size (ops ++ [OInit q true true (Some p)] ++ repeat (OSign InProgress) n ++ [OSign (Sig x)])) (OCreate (Some plat))) = Token t.
Proof.
  intros Wq Wp Wx Wl Fit. rewrite !run_app, !fold_left_app. cbn [fold_left].
  assert (E : fst (step size (run size ops) (OInit q true true (Some p))) = mkSys (signing (the_payload q p)) []).
  { cbn [step]. unfold ctx_init. destruct (t_state (y_ctx (run size ops))) eqn:St;
      try (rewrite (create_ok q p (mkCtx Init enc_init []) eq_refl Wq); reflexivity).
    rewrite (create_ok q p _ St Wq). reflexivity. }
  rewrite E, waits. cbn [step y_ctx].
  destruct (sign_ok (the_payload q p) x (payload_len q p Wq Wp) Wx) as (e & ->). cbn [fst snd y_ctx y_realm].
  rewrite cca_ok by reflexivity. pose proof (realm_small q p x Wq Wp Wx) as R.
  pose proof (cca_len plat (realm_token (the_payload q p) x) Wl ltac:(eapply N.le_lt_trans; [exact R | reflexivity])) as C.
  destruct (N.ltb_spec size (len (cca_token plat (realm_token (the_payload q p) x)))) as [X | _].
  - exfalso. clear - X C R Fit. lia.
  - eexists; reflexivity.
Qed.
(** No token fits when the platform token fills the buffer *)
Lemma no_room size s plat t : size <= len plat -> snd (step size s (OCreate (Some plat))) <> Token t.
Proof.
  intros L T. destruct (token_state _ _ _ _ T) as (_ & _ & p & E & -> & F). injection E as <-.
  unfold cca_token in F. cbn [List.concat] in F. unfold bstr in F. rewrite !len_app in F.
  change (len (head 6 399)) with 3 in F. clear - L F. lia.
Qed.
(** A token says what it is about *)
Lemma le64_inj v w : v < 2 ^ 64 -> w < 2 ^ 64 -> le64 v = le64 w -> v = w.
Proof.
  intros Hv Hw E. rewrite <- (be_val 8 v), <- (be_val 8 w) by assumption. f_equal.
  rewrite <- (rev_involutive (be 8 v)), <- (rev_involutive (be 8 w)). f_equal. exact E.
Qed.
Lemma app_inv_length (a : list N) : forall b c d, List.length a = List.length b -> a ++ c = b ++ d -> a = b /\ c = d.
Proof.
  induction a as [| x a IH]; intros [| y b] c d L E; try discriminate L; [split; [reflexivity | exact E] |].
  injection L as L. injection E as -> E. destruct (IH b c d L E) as [-> ->]. split; reflexivity.
Qed.
Lemma regs_inj l : forall m, Forall (fun v => v < 2 ^ 64) l -> Forall (fun v => v < 2 ^ 64) m ->
  List.concat (map le64 l) = List.concat (map le64 m) -> l = m.
Proof.
  induction l as [| v l IH]; intros [| w m] Hl Hm E; [reflexivity | | |].
  - apply (f_equal len) in E. rewrite !chal_len in E. cbn [List.length] in E. lia.
  - apply (f_equal len) in E. rewrite !chal_len in E. cbn [List.length] in E. lia.
  - inversion Hl; inversion Hm; subst. cbn [map List.concat] in E.
    assert (L : List.length (le64 v) = List.length (le64 w)) by reflexivity.
    destruct (app_inv_length _ _ _ _ L E) as [E1 E2].
    f_equal; [apply le64_inj; assumption | apply IH; assumption].
Qed.
Lemma is_item_fun l i j : is_item l i -> is_item l j -> i = j.
Proof. unfold is_item. intros A B. rewrite A in B. congruence. Qed.
#[local] Transparent str.
Lemma alg_inj a b : (a = 0 \/ a = 1) -> (b = 0 \/ b = 1) -> str (if a =? 0 then "sha-256" else "sha-512") = str (if b =? 0 then "sha-256" else "sha-512") -> a = b.
Proof. intros [-> | ->] [-> | ->] E; vm_compute in E; congruence. Qed.
#[local] Opaque str.
Lemma token_binds t plat q p x plat' q' p' x' : wf_claims q -> wf_claims q' ->
  Forall (fun v => v < 2 ^ 64) (q_regs q) -> Forall (fun v => v < 2 ^ 64) (q_regs q') ->
  token_of t plat q p x -> token_of t plat' q' p' x' -> plat = plat' /\ p = p' /\ x = x' /\ same_claims q q'.
Proof.
  intros Wq Wq' R R' (P & r & A & B & C) (P' & r' & A' & B' & C').
  pose proof (is_item_fun _ _ _ A A') as E. unfold cca in E. injection E as -> ->.
  pose proof (is_item_fun _ _ _ B B') as E. unfold sign1 in E. injection E as -> ->.
  pose proof (is_item_fun _ _ _ C C') as E. clear A A' B B' C C'. destruct Wq as (A & L & _ & _ & G). destruct Wq' as (A' & L' & _ & _ & G').
  unfold realm_claims in E. rewrite (challenge_eq _ G), (challenge_eq _ G') in E. cbn [map] in E.
  injection E as E1 E2 E3 E4 E5 E6 E7 E8 E9.

  pose proof (alg_inj _ _ A A' E4) as EA. subst p'. repeat split; auto.
  - apply regs_inj; assumption.
  - assert (M : meas_bytes q' = meas_bytes q) by (unfold meas_bytes; rewrite EA; reflexivity). rewrite M in *.
    destruct (list5 _ L) as (a0 & a1 & a2 & a3 & a4 & Ea). destruct (list5 _ L') as (b0 & b1 & b2 & b3 & b4 & Eb).
    rewrite Ea, Eb in *. cbn [nth map] in *. congruence.
Qed.
(** When a request is accepted *)
Lemma heap_before size ops : t_state (y_ctx (run size ops)) <> NotStarted -> exists q sg pub, In (OInit q true sg pub) ops.
Proof.
  induction ops as [| o ops IH] using rev_ind; intros S; [destruct S; reflexivity |].
  assert (K : t_state (y_ctx (run size ops)) <> NotStarted -> exists q sg pub, In (OInit q true sg pub) (ops ++ [o])).
  { intros S'. destruct (IH S') as (q & sg & pub & H). exists q, sg, pub. apply in_or_app; left; exact H. }
  rewrite run_snoc in S. destruct o as [q h sg pub | g | plat].
  - destruct h; [exists q, sg, pub; apply in_or_app; right; left; reflexivity |]. apply K. intros E. apply S.
    cbn [step]. unfold ctx_init. rewrite E. reflexivity.
  - apply K. intros E. apply S. cbn [step]. unfold realm_token_sign. rewrite E. exact E.
  - apply K. intros E. apply S. cbn [step]. unfold cca_token_create. rewrite E. exact E.
Qed.
Lemma init_result size ops q heap sg pub : wf_claims q ->
  (snd (step size (run size ops) (OInit q heap sg pub)) = Done ->
     sg = true /\ pub <> None /\ (heap = true \/ exists q' sg' pub', In (OInit q' true sg' pub') ops)) /\
  (heap = true -> sg = true -> pub <> None -> snd (step size (run size ops) (OInit q heap sg pub)) = Done).
Proof.
  intros W. split.
  - intros D.
    assert (A : forall c, snd (match realm_token_create q sg pub c with
        | COk c => (mkSys c [], Done) | CErr => (mkSys c [], Nothing) | CAssert => (run size ops, Stopped) end) = Done -> sg = true /\ pub <> None).
    { intros c. unfold realm_token_create. destruct (t_state c); try discriminate. destruct (negb _); [discriminate |].
      destruct sg; [| discriminate]. destruct pub; [| discriminate]. split; [reflexivity | discriminate]. }
    cbn [step] in D. unfold ctx_init in D. destruct (t_state (y_ctx (run size ops))) eqn:St.
    all: try (destruct heap; [destruct (A _ D); auto | discriminate D]).
    destruct (A _ D). split; [assumption |]. split; [assumption |]. right. apply (heap_before size). rewrite St. discriminate.
  - intros -> -> P. destruct pub as [p |]; [| destruct P; reflexivity].
    cbn [step]. unfold ctx_init. destruct (t_state (y_ctx (run size ops))) eqn:St;
      try (rewrite (create_ok q p (mkCtx Init enc_init []) eq_refl W); reflexivity).
    rewrite (create_ok q p _ St W). reflexivity.
Qed.
