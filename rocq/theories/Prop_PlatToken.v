(** C72-C73: the platform token and the attestation key that RMM takes from EL3. *)
From Coq Require Import NArith ZArith List Bool Lia.
From Verif Require Import PlatToken SpecPlatToken PlatTokenFacts.
Import ListNotations.
Local Open Scope N_scope.

(** A crypto library for the examples, a key of EL3, and the state after it is loaded *)
Definition toy : crypto := mkCrypto (fun k => negb (length k =? 0)%nat) (fun k => Some (1 :: k)) (fun p => Some (repeat (nth 1 p 0) 32)).
Definition key_ans : ans := mkAns 0 3 0 (of_list [7; 8; 9]).
Definition loaded : state := match init_key toy false key_ans init with Ret _ s _ => s | _ => init end.

(** C72: if EL3 hands out the token T, in whatever pieces and however often it is busy, then RMM
    keeps exactly T, or refuses it if it is larger than the buffer.  The calls up to the first
    piece carry the hash of the public key as the challenge, the later ones carry none, and
    the shared buffer is free again. *)
Theorem plat_token_ok : forall old cap answers s T b,
  cap <= 2 ^ 62 -> s_loaded s = true -> length (s_hash s) = 32%nat ->
  (forall i, 32 <= i -> b i = s_shared s i) -> (forall i, i < 32 -> b i = nth (N.to_nat i) (s_hash s) 0) ->
  serves old T b answers -> T <> [] -> len T < 2 ^ 63 ->
  exists r s' l, setup_token old cap answers s = Ret r s' (repeat (32, s_hash s) (S (busy_first answers)) ++ l) /\
    Forall (fun c => fst c = 0) l /\ s_locked s' = false /\
    if len T <=? cap then r = 0%Z /\ get_token s' = Some T else r = ENOMEM /\ s_token s' = s_token s.
Proof. exact setup_serves. Qed.
Definition demo_buf : buf := of_list (repeat 7 32).
Definition demo_answers : list ans :=
  [mkAns (2 ^ 64 - 6) 0 0 demo_buf; mkAns 0 2 3 (of_list [1; 2]); mkAns (2 ^ 64 - 6) 0 0 (of_list [1; 2]); mkAns 0 3 0 (of_list [3; 4; 5])].
Example demo_serves :
  s_loaded loaded = true /\ length (s_hash loaded) = 32%nat /\
  (forall i, 32 <= i -> demo_buf i = s_shared loaded i) /\ (forall i, i < 32 -> demo_buf i = nth (N.to_nat i) (s_hash loaded) 0) /\
  serves false [1; 2; 3; 4; 5] demo_buf demo_answers /\
  match setup_token false 4096 demo_answers loaded, setup_token false 4 demo_answers loaded with
  | Ret r s l, Ret r' s' l' => r = 0%Z /\ get_token s = Some [1; 2; 3; 4; 5] /\ map fst l = [32; 32; 0; 0] /\ r' = ENOMEM /\ get_token s' = None
  | _, _ => False
  end.
Proof.
  split; [reflexivity |]. split; [reflexivity |]. split.
  { intros i Hi. unfold demo_buf, of_list. rewrite nth_overflow by (rewrite repeat_length; lia).
    change (s_shared loaded) with (put (of_list [7; 8; 9]) 0 (fun _ => 0) 3).
    unfold put, of_list. destruct (N.ltb_spec i (0 + 3)); [lia |]. rewrite andb_false_r.
    rewrite nth_overflow; [reflexivity | cbn; lia]. }
  split; [intros i Hi; reflexivity |]. split.
  { cbn [serves demo_answers]. left. split; [reflexivity |]. split; [reflexivity |].
    right. exists [1; 2], [3; 4; 5]. split; [reflexivity |]. split; [discriminate |]. split; [vm_compute; discriminate |].
    split; [reflexivity |]. split; [reflexivity |]. split; [reflexivity |]. split; [reflexivity |]. intros _.
    left. split; [reflexivity |]. split; [reflexivity |].
    right. exists [3; 4; 5], []. split; [reflexivity |]. split; [discriminate |]. split; [vm_compute; discriminate |].
    split; [reflexivity |]. split; [reflexivity |]. split; [reflexivity |]. split; [reflexivity |]. congruence. }
  vm_compute. repeat split.
Qed.

(** C72: whatever EL3 answers, as long as its sizes fit the shared buffer and do not wrap and its
    errors are errors as an int, RMM stays inside its buffers, lets go of the shared buffer, and
    keeps what was delivered, or the token it had. *)
Theorem plat_token_safe_partial : forall old cap s answers,
  cap <= 2 ^ 62 -> Forall sane answers -> s_locked s = false ->
  match setup_token old cap answers s with
  | Bad | Assert => False
  | Waiting => True
  | Ret r s' _ => s_locked s' = false /\
      (r = 0%Z -> get_token s' = Some (delivered old answers) /\ len (delivered old answers) <= cap) /\
      (r <> 0%Z -> s_token s' = s_token s)
  end.
Proof. exact setup_gen. Qed.
Example demo_sane : Forall sane demo_answers /\ s_locked loaded = false /\ delivered false demo_answers = [1; 2; 3; 4; 5].
Proof.
  split; [| split; reflexivity].
  repeat constructor; vm_compute; repeat split; discriminate.
Qed.

(** C72 without that: sizes of EL3 that wrap pass the check, and RMM copies from outside of the
    shared buffer to outside of its own (F38) *)
Theorem plat_token_wrap_refuted : ~ (forall s answers, s_loaded s = true ->
  Forall (fun a => a1 a < 2 ^ 64 /\ a2 a < 2 ^ 64) answers -> setup_token false 4096 answers s <> Bad).
Proof.
  intros H. refine (H loaded [mkAns 0 8192 (2 ^ 64 - 8192) demo_buf] eq_refl _ _).
  - repeat constructor; vm_compute; reflexivity.
  - vm_compute; reflexivity.
Qed.
(** ... and an error of EL3 whose low 32 bits are 0 counts as the last piece once more (F39) *)
Theorem plat_token_status_refuted : ~ (forall s answers, s_loaded s = true ->
  match setup_token false 4096 answers s with
  | Ret r s' _ => r = 0%Z -> get_token s' = Some (delivered false answers)
  | _ => True
  end).
Proof.
  intros H. specialize (H loaded [mkAns 0 1 1 (of_list [1]); mkAns (2 ^ 32) 0 0 (of_list [6]); mkAns 0 1 0 (of_list [2])] eq_refl).
  vm_compute in H. specialize (H eq_refl). discriminate H.
Qed.

(** C73: in every history of the calls at boot, with every EL3: the shared buffer is free; a
    token and a key to sign with are only there with a public key; and the public key handed out is that of the key imported,
    and the challenge its hash. *)
Theorem attest_boot_ok : forall c el3 old cap s, reach c el3 old cap s ->
  s_locked s = false /\
  (get_token s <> None -> get_public_key s <> None) /\
  (get_signing_key el3 s <> None -> get_public_key s <> None) /\
  (forall p, get_public_key s = Some p -> exists k, c_import c k = true /\ c_encode c k = Some p /\ c_sha c p = Some (s_hash s) /\
     get_signing_key el3 s = if el3 then None else Some k).
Proof.
  intros c el3 old cap s R. destruct (reach_inv _ _ _ _ _ R) as (L & T & K). split; [exact L |]. split.
  - unfold get_token, get_public_key. intros H. rewrite T by (intros E; rewrite E in H; contradiction). discriminate.
  - split; [unfold get_public_key, get_signing_key; destruct el3, (s_loaded s); congruence |].
    unfold get_public_key, get_signing_key. intros p. destruct (s_loaded s); [| discriminate].
    intros E; inversion E; subst. exists (s_key s). destruct (K eq_refl) as (A & B & C). auto.
Qed.
(** C73: a key once loaded stays *)
Theorem attest_key_once : forall c el3 old cap s o r s' l p, reach c el3 old cap s ->
  step c el3 old cap s o = Ret r s' l -> get_public_key s = Some p ->
  get_public_key s' = Some p /\ get_signing_key el3 s' = get_signing_key el3 s /\ s_hash s' = s_hash s.
Proof.
  intros c el3 old cap s o r s' l p R E G. unfold get_public_key, get_signing_key in *.
  destruct (s_loaded s) eqn:Ld; [| discriminate].
  destruct (proj2 (step_inv _ _ _ _ _ _ _ _ _ (reach_inv _ _ _ _ _ R) E) Ld) as (A & B & C & D).
  rewrite A, B, C, D, Ld. auto.
Qed.
(** C73: where RMM signs, the private key is gone from the shared buffer when the call returns,
    also if the key is refused. *)
Theorem attest_key_wiped : forall c a s r s' l, s_loaded s = false -> a0 a = 0 ->
  init_key c false a s = Ret r s' l -> forall i, i < a1 a -> s_shared s' i = 0.
Proof. exact key_wiped_. Qed.
Example demo_boot :
  reach toy false false 4096 loaded /\ get_public_key loaded = Some [1; 7; 8; 9] /\ get_signing_key false loaded = Some [7; 8; 9] /\
  map (s_shared loaded) [0; 1; 2] = [0; 0; 0] /\
  match step toy false false 4096 loaded (SetupToken demo_answers) with
  | Ret r s _ => reach toy false false 4096 s /\ get_token s = Some [1; 2; 3; 4; 5]
  | _ => False
  end.
Proof.
  assert (R : reach toy false false 4096 loaded).
  { refine (reach_step _ _ _ _ init (InitKey key_ans) 0%Z loaded [] (reach_init _ _ _ _) _). vm_compute; reflexivity. }
  split; [exact R |]. split; [vm_compute; reflexivity |]. split; [vm_compute; reflexivity |]. split; [vm_compute; reflexivity |].
  destruct (step toy false false 4096 loaded (SetupToken demo_answers)) as [r s l | | |] eqn:E; try (vm_compute in E; discriminate E).
  split; [exact (reach_step _ _ _ _ _ _ _ _ _ R E) |]. vm_compute in E. inversion E; subst. vm_compute. reflexivity.
Qed.
(** C73 for sizes: the size of the key is taken from EL3 unchecked, so that a size that does not
    fit makes RMM clear (or copy over) memory after its buffers (F40) *)
Theorem attest_key_size_refuted : ~ (forall c el3 a s, a0 a = 0 -> init_key c el3 a s <> Bad).
Proof. intros H. apply (H toy false (mkAns 0 4097 0 (fun _ => 0)) init eq_refl). vm_compute; reflexivity. Qed.

Definition plat_token_theorems := (@plat_token_ok, @plat_token_safe_partial, @plat_token_wrap_refuted, @plat_token_status_refuted,
  @attest_boot_ok, @attest_key_once, @attest_key_wiped, @attest_key_size_refuted).
Print Assumptions plat_token_theorems.
