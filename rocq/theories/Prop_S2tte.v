(** C22: the codec of stage 2 table entries. *)
From Coq Require Import NArith ZArith List Bool.
From Verif Require Import Bits S2tte S2tteFacts Arch SpecCodec ArchFacts.
Import ListNotations.
Local Open Scope N_scope.

(** Every entry built by the monitor is recognised as what it is and as
    nothing else, for every address, level and descriptor format. *)
Theorem C22_unambiguous : forall lpa2 level e k,
  valid_entry lpa2 level e -> k < 9 ->
  nth (N.to_nat k) (recognisers level (enc lpa2 level e)) false = (k =? kind e).
Proof. exact recognise_enc. Qed.

(** Every entry with an address decodes to the address it was built from. *)
Theorem C22_address : forall lpa2 level e,
  valid_entry lpa2 level e -> 4 <= kind e ->
  s2tte_pa lpa2 (enc lpa2 level e) level = epa e.
Proof. exact pa_enc_epa. Qed.

(** Two different entries never have the same encoding. *)
Theorem C22_injective : forall lpa2 level e e',
  valid_entry lpa2 level e -> valid_entry lpa2 level e' ->
  enc lpa2 level e = enc lpa2 level e' -> e = e'.
Proof. exact enc_inj. Qed.

(** What the MMU makes of an entry: assigned RAM entries are leaves that map the
    address they were built from in realm space and executable, assigned NS
    entries are leaves that map it in non-secure space without execution
    permission, table entries point to the address they were built from and
    everything else faults. *)
Theorem C22_mmu : forall lpa2 level e,
  valid_entry lpa2 level e ->
  arch_decode lpa2 level (enc lpa2 level e) =
  match e with
  | EAsRam pa => ALeaf pa false false
  | EAsNs _ pa => ALeaf pa true true
  | ETable pa => ATable pa
  | _ => AInvalid
  end.
Proof. exact arch_decode_enc. Qed.

(** The recovered RIPAS is the one encoded. *)
Theorem C22_ripas : forall lpa2 level e,
  valid_entry lpa2 level e ->
  match e with
  | EUnEmpty | EAsEmpty _ => s2tte_get_ripas (enc lpa2 level e) = Some EMPTY
  | EUnRam | EAsRam _ => s2tte_get_ripas (enc lpa2 level e) = Some RAM
  | EUnDestr | EAsDestr _ => s2tte_get_ripas (enc lpa2 level e) = Some DESTROYED
  | _ => True
  end.
Proof. exact ripas_enc. Qed.

(** Whatever descriptor the host offers for unprotected memory, if it is
    accepted, what is installed is a non-executable, non-secure leaf for the
    address the descriptor names, with the attributes it names. *)
Theorem C22_host_descriptor : forall lpa2 level h,
  block_level level -> host_ns_s2tte_is_valid lpa2 h level = true ->
  let w := s2tte_create_assigned_ns lpa2 (host_ns_s2tte lpa2 h level) level in
  arch_decode lpa2 level w = ALeaf (arch_oa lpa2 (arch_lsb level) h) true true /\
  bits w 4 2 = bits h 4 2 /\ bits w 7 6 = bits h 7 6.
Proof. exact host_ns_installed. Qed.

(** Non-trivial instances: a 2MB block above 2^50 with 52-bit descriptors, and a page. *)
Example C22_instance_lpa2 : valid_entry true 2 (EAsRam (2 ^ 51 + 2 ^ 48 + 2 ^ 21)).
Proof. repeat split; (reflexivity || discriminate). Qed.
Example C22_instance : valid_entry false 3 (EAsNs (255 - 2 - 1 - 32 - 4) (2 ^ 47 + 4096)).
Proof. repeat split; (reflexivity || discriminate). Qed.
Example C22_instance_host : host_ns_s2tte_is_valid true (2 ^ 49 + 2 ^ 21 + 256 + 28 + 64) 2 = true.
Proof. reflexivity. Qed.

Definition s2tte_theorems := (@C22_unambiguous, @C22_address, @C22_injective, @C22_mmu, @C22_ripas, @C22_host_descriptor).
Print Assumptions s2tte_theorems.
