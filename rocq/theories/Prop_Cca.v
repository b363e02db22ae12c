(** C74-C76: what an attestation token says, when one is made, and for whom. *)
From Coq Require Import NArith List Bool Ascii String.
From Verif Require Import Cca SpecCbor SpecCca CcaFacts.
Import ListNotations.
Local Open Scope N_scope.

(** ** An example: a realm with SHA-256, and one with SHA-512 *)
Definition demo_q : claims := mkClaims 0 (map (fun k => repeat k 64) [10; 11; 12; 13; 14]) (repeat 7 64) [1; 2; 3; 4; 5; 6; 7; 2 ^ 64 - 1].
Definition demo_q' : claims := mkClaims 1 (map (fun k => repeat k 64) [20; 21; 22; 23; 24]) (repeat 8 64) [8; 7; 6; 5; 4; 3; 2; 1].
Definition demo_pub : list N := 4 :: repeat 9 96.
Definition demo_sig : list N := repeat 200 96.
Definition demo_ops : list op :=
  [OCreate (Some [1]); OInit demo_q false true (Some demo_pub); OInit demo_q true false None;
   OInit demo_q true true (Some demo_pub); OSign InProgress; OInit demo_q' true true (Some demo_pub);
   OSign InProgress; OCreate (Some [1]); OSign SigFail; OSign (Sig demo_sig); OCreate None].
Definition demo_plat : list N := repeat 77 300.
Example demo_wf : Forall wf_op demo_ops /\ wf_op (OCreate (Some demo_plat)) /\ wf_claims demo_q /\ wf_claims demo_q' /\ wf_pub demo_pub.
Proof.
  assert (A : wf_claims demo_q). { split; [left; reflexivity |]. repeat split; vm_compute; auto. repeat constructor. }
  assert (A' : wf_claims demo_q'). { split; [right; reflexivity |]. repeat split; vm_compute; auto. repeat constructor. }
  assert (P : wf_pub demo_pub) by (vm_compute; discriminate).
  split; [| split; [reflexivity | auto]]. unfold demo_ops. repeat (constructor; [cbn; auto |]); try reflexivity; try constructor.
Qed.
Definition demo_token : list N :=
  match snd (step 4096 (run 4096 demo_ops) (OCreate (Some demo_plat))) with Token t => t | _ => [] end.
(** The token is about the last request; the earlier ones leave no trace *)
Example demo_made : snd (step 4096 (run 4096 demo_ops) (OCreate (Some demo_plat))) = Token demo_token /\
  len demo_token = 1056 /\ firstn 8 demo_token = [217; 1; 143; 162; 25; 172; 202; 89] /\ asked demo_ops demo_q' demo_pub demo_sig /\
  token_of demo_token demo_plat demo_q' demo_pub demo_sig.
Proof.
  split; [vm_compute; reflexivity |]. split; [vm_compute; reflexivity |]. split; [vm_compute; reflexivity |]. split.
  - exists (firstn 5 demo_ops), true, [OSign InProgress; OCreate (Some [1]); OSign SigFail], [OCreate None].
    split; [reflexivity |]. repeat (constructor; [intros [] |]). constructor.
  - exists (t_payload (y_ctx (run 4096 demo_ops))), (y_realm (run 4096 demo_ops)). repeat split; vm_compute; reflexivity.
Qed.
(** The decoder of SpecCbor reads a token from RFC 9052: the protected header {1: -35}, and
    refuses what is not one item *)
Example demo_decode : is_item [161; 1; 56; 34] (Map [(UInt 1, NInt 34)]) /\ decode 8 [161; 1] = None /\
  ~ is_item [1; 2] (UInt 1) /\ is_item [130; 1; 25; 1; 0] (Array [UInt 1; UInt 256]) /\ is_item [97; 65] (Text (str "A")).
Proof. repeat split; try (vm_compute; reflexivity). vm_compute. discriminate. Qed.

(** ** C74 *)
(** Whatever was called before, a token is made only by a call that has a platform token, is one
    CBOR item that fits the buffer, contains that platform token and a COSE_Sign1 of the claims of
    the last request, made and signed since; and no assert fails *)
Theorem cca_token_contents : forall size ops o t, Forall wf_op ops -> wf_op o -> snd (step size (run size ops) o) = Token t ->
  exists plat q p s, o = OCreate (Some plat) /\ asked ops q p s /\ token_of t plat q p s /\ len t <= size.
Proof. exact token_contents. Qed.
Theorem cca_token_no_assert : forall size ops o, Forall wf_op ops -> wf_op o -> snd (step size (run size ops) o) <> Stopped.
Proof. exact no_stop. Qed.
Example cca_token_contents_met : exists q p s, asked demo_ops q p s /\ token_of demo_token demo_plat q p s.
Proof.
  destruct demo_wf as (W & Wp & _). destruct demo_made as (M & _).
  destruct (cca_token_contents _ _ _ _ W Wp M) as (plat & q & p & s & E & A & T & _). injection E as <-. exists q, p, s. auto.
Qed.
(** A token is made at most once for a request *)
Theorem cca_token_once : forall size ops o t more o', snd (step size (run size ops) o) = Token t ->
  Forall (fun o => ~ is_init o) (more ++ [o']) -> snd (step size (run size (ops ++ [o] ++ more)) o') = Nothing.
Proof. exact token_once. Qed.
Example cca_token_once_met : snd (step 4096 (run 4096 (demo_ops ++ [OCreate (Some demo_plat)] ++ [OSign (Sig demo_sig)])) (OCreate (Some demo_plat))) = Nothing.
Proof. apply (cca_token_once 4096 demo_ops _ _ _ _ (proj1 demo_made)). repeat (constructor; [intros [] |]). constructor. Qed.

(** ** C75 *)
(** A request that starts in any state and that is signed after any number of steps ends in a
    token, if the platform token leaves 788 bytes of the buffer *)
Theorem cca_token_made : forall size ops q p n s plat, wf_claims q -> wf_pub p -> List.length s = 96%nat ->
  len plat < 2 ^ 16 -> len plat + 788 <= size ->
  exists t, snd (step size (run size (ops ++ [OInit q true true (Some p)] ++ repeat (OSign InProgress) n ++ [OSign (Sig s)]))
    (OCreate (Some plat))) = Token t.
Proof. exact token_done. Qed.
Example cca_token_made_met : exists t, snd (step 4096 (run 4096 (demo_ops ++ [OInit demo_q true true (Some demo_pub)] ++
  repeat (OSign InProgress) 1000 ++ [OSign (Sig demo_sig)])) (OCreate (Some demo_plat))) = Token t.
Proof.
  destruct demo_wf as (_ & _ & W & _ & P). apply cca_token_made; [exact W | exact P | reflexivity | reflexivity | vm_compute; discriminate].
Qed.
(** A request is accepted only with a signing key, its public key and a heap, and then it is *)
Theorem cca_init_result : forall size ops q heap signer pub, wf_claims q ->
  (snd (step size (run size ops) (OInit q heap signer pub)) = Done ->
     signer = true /\ pub <> None /\ (heap = true \/ exists q' signer' pub', In (OInit q' true signer' pub') ops)) /\
  (heap = true -> signer = true -> pub <> None -> snd (step size (run size ops) (OInit q heap signer pub)) = Done).
Proof. exact init_result. Qed.
(** The heap of an earlier request that had no key is used again *)
Example cca_init_result_met : snd (step 4096 (run 4096 [OInit demo_q true false None]) (OInit demo_q false true (Some demo_pub))) = Done /\
  snd (step 4096 (run 4096 []) (OInit demo_q false true (Some demo_pub))) = Nothing.
Proof. vm_compute. auto. Qed.
(** F41: not for every platform token that RMM accepts.  With the default configuration the buffer
    has 4096 bytes (cmake/CommonConfigs.cmake:57, runtime/include/rec.h:55) and
    a platform token may have 4096 bytes (lib/attestation/CMakeLists.txt:16-31) *)
Theorem cca_token_full : forall size s plat t, size <= len plat -> snd (step size s (OCreate (Some plat))) <> Token t.
Proof. exact no_room. Qed.
Theorem cca_token_made_refuted : ~ forall ops q p s plat, wf_claims q -> wf_pub p -> List.length s = 96%nat -> len plat <= 4096 ->
  exists t, snd (step 4096 (run 4096 (ops ++ [OInit q true true (Some p)] ++ [OSign (Sig s)])) (OCreate (Some plat))) = Token t.
Proof.
  intros H. destruct demo_wf as (_ & _ & W & _ & P).
  destruct (H [] demo_q demo_pub demo_sig (repeat 77 4096) W P eq_refl) as [t T]; [vm_compute; discriminate |].
  revert T. apply cca_token_full. vm_compute. discriminate.
Qed.

(** ** C76 *)
(** Equal tokens are about the same platform token, key, signature, algorithm, personalization
    value, challenge and measurements *)
Theorem cca_token_binds : forall t plat q p s plat' q' p' s', wf_claims q -> wf_claims q' ->
  Forall (fun v => v < 2 ^ 64) (q_regs q) -> Forall (fun v => v < 2 ^ 64) (q_regs q') ->
  token_of t plat q p s -> token_of t plat' q' p' s' -> plat = plat' /\ p = p' /\ s = s' /\ same_claims q q'.
Proof. exact token_binds. Qed.
(** So no token for one realm passes as one for another *)
Example cca_token_binds_met : ~ token_of demo_token demo_plat demo_q demo_pub demo_sig.
Proof.
  intros T. destruct demo_wf as (_ & _ & W & W' & _). destruct demo_made as (_ & _ & _ & _ & T').
  assert (R : Forall (fun v => v < 2 ^ 64) (q_regs demo_q)) by (repeat constructor).
  assert (R' : Forall (fun v => v < 2 ^ 64) (q_regs demo_q')) by (repeat constructor).
  destruct (cca_token_binds _ _ _ _ _ _ _ _ _ W W' R R' T T') as (_ & _ & _ & (A & _)). discriminate A.
Qed.

Definition cca_theorems := (@cca_token_contents, @cca_token_no_assert, @cca_token_once, @cca_token_made, @cca_init_result, @cca_token_full,
  @cca_token_made_refuted, @cca_token_binds).
Print Assumptions cca_theorems.
