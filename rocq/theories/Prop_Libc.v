(** C69-C71: copies of memory, comparisons, strings. *)
From Coq Require Import NArith ZArith List Bool Lia.
From Verif Require Import Libc SpecLibc LibcFacts.
Import ListNotations.
Local Open Scope N_scope.

(** A memory with "abcde", NUL, "abd", NUL at 100 and nothing else *)
Definition demo : mem := fun x =>
  if (100 <=? x) && (x <? 110) then Some (nth (N.to_nat (x - 100)) [97; 98; 99; 100; 101; 0; 97; 98; 100; 0] 0) else None.
Ltac cases i Hi := unfold len in Hi; cbn in Hi;
  assert (C : i = 0 \/ i = 1 \/ i = 2 \/ i = 3 \/ i = 4 \/ i = 5) by lia;
  repeat (destruct C as [-> | C]; [vm_compute; first [reflexivity | discriminate | congruence] |]);
  subst i; vm_compute; first [reflexivity | discriminate | congruence].

(** C69: memcpy copies where the destination is not in what is still to be read. *)
Theorem memcpy_ok : forall m dst src n,
  object m src n -> object m dst n -> (dst <= src \/ src + n <= dst) ->
  exists m', memcpy m dst src n = Ok m' /\ copied m m' dst src n.
Proof. exact memcpy_ok_. Qed.

(** C69: memmove copies what was there before, whatever the overlap, and touches nothing else. *)
Theorem memmove_ok : forall fuel m dst src n,
  object m src n -> object m dst n -> dst + n <= 2 ^ 64 -> src + n <= 2 ^ 64 -> n <= N.of_nat fuel ->
  exists m', memmove fuel m dst src n = Ok m' /\ copied m m' dst src n.
Proof. exact memmove_ok_. Qed.
Example demo_memmove :
  object demo 100 4 /\ object demo 101 4 /\ 101 + 4 <= 2 ^ 64 /\ 100 + 4 <= 2 ^ 64 /\ 4 <= N.of_nat 4 /\
  match memmove 4 demo 101 100 4, memcpy demo 101 100 4 with
  | Ok m, Ok m' => map m [100; 101; 102; 103; 104; 105] = map Some [97; 97; 98; 99; 100; 0]
                   /\ map m' [100; 101; 102; 103; 104; 105] = map Some [97; 97; 97; 97; 97; 0]
  | _, _ => False
  end.
Proof.
  split; [intros i Hi; cases i Hi |]. split; [intros i Hi; cases i Hi |].
  repeat split; try (vm_compute; first [reflexivity | discriminate]).
Qed.

(** C70: the sign of memcmp is the order of the first bytes that differ. *)
Theorem memcmp_ok : forall m s1 s2 n l1 l2,
  len l1 = n -> len l2 = n -> holds m s1 l1 -> holds m s2 l2 ->
  exists r, memcmp m s1 s2 n = Ok r /\ Z.compare r 0 = lex l1 l2.
Proof. exact memcmp_ok_. Qed.
Example demo_memcmp :
  holds demo 100 [97; 98; 99] /\ holds demo 106 [97; 98; 100] /\
  memcmp demo 100 106 3 = Ok (-1)%Z /\ memcmp demo 100 106 2 = Ok 0%Z.
Proof. repeat split; try (intros i Hi; cases i Hi). Qed.

(** C70: strcmp is the order of the dictionary, and reads nothing after the strings. *)
Theorem strcmp_ok : forall fuel m s1 s2 l1 l2,
  string_at m s1 l1 -> string_at m s2 l2 -> len l1 < N.of_nat fuel ->
  exists r, strcmp fuel m s1 s2 = Ok r /\ Z.compare r 0 = lex l1 l2.
Proof. exact (fun fuel m s1 s2 l1 l2 => strcmp_ok_ l1 fuel l2 m s1 s2). Qed.
(** C70: strncmp likewise for the first n bytes, which need not end in NUL. *)
Theorem strncmp_ok : forall m s1 s2 n l1 l2,
  string_in m s1 n l1 -> string_in m s2 n l2 ->
  exists r, strncmp m s1 s2 n = Ok r /\ Z.compare r 0 = lex l1 l2.
Proof. exact strncmp_ok_. Qed.
Example demo_string : string_at demo 100 [97; 98; 99; 100; 101].
Proof. split; [repeat constructor; discriminate |]. intros i Hi; cases i Hi. Qed.
Example demo_string2 : string_at demo 106 [97; 98; 100].
Proof. split; [repeat constructor; discriminate |]. intros i Hi; cases i Hi. Qed.
Example demo_in : string_in demo 100 2 [97; 98] /\ string_in demo 106 9 [97; 98; 100].
Proof.
  split; (split; [repeat constructor; discriminate |]); (split; [intros i Hi; cases i Hi |]).
  - left; reflexivity.
  - right; split; reflexivity.
Qed.
Example demo_strcmp : strcmp 9 demo 100 106 = Ok (-1)%Z /\ strncmp demo 100 106 2 = Ok 0%Z /\ strncmp demo 106 100 9 = Ok 1%Z.
Proof. vm_compute; auto. Qed.

(** C71: the length of a string, and its length in no more than n bytes. *)
Theorem strlen_ok : forall fuel m s l, string_at m s l -> len l < N.of_nat fuel -> strlen fuel m s = Ok (len l).
Proof. exact strlen_ok_. Qed.
Theorem strnlen_ok : forall m s n l, string_in m s n l -> strnlen m s n = Ok (len l).
Proof. exact strnlen_ok_. Qed.
(** C71: strchr finds the first byte that is the character, or NULL; the NUL at the end counts. *)
Theorem strchr_ok : forall fuel m p ch l, string_at m p l -> len l < N.of_nat fuel ->
  strchr fuel m p ch = Ok (option_map (N.add p) (first_of (ch mod 256) (l ++ [0]))).
Proof. exact (fun fuel m p ch l => strchr_loop_ok l fuel m p (ch mod 256)). Qed.
(** C71: strlcpy leaves in the buffer the start of the string that fits with its NUL, touches
    nothing after that NUL and nothing outside, and returns the length of the whole string. *)
Theorem strlcpy_ok : forall fuel m dst src dsize l,
  string_at m src l -> object m dst dsize -> (dst + dsize <= src \/ src + len l < dst) -> len l < N.of_nat fuel ->
  let k := N.min (len l) (dsize - 1) in
  exists m', strlcpy fuel m dst src dsize = Ok (m', len l) /\
    (forall x, x < dst \/ dst + N.min (k + 1) dsize <= x -> m' x = m x) /\
    (0 < dsize -> string_at m' dst (firstn (N.to_nat k) l)).
Proof. exact strlcpy_ok_. Qed.
Example demo_strlcpy :
  string_at demo 106 [97; 98; 100] /\ object demo 100 3 /\ 100 + 3 <= 106 /\
  match strlcpy 9 demo 100 106 3 with
  | Ok (m, n) => n = 3 /\ map m [100; 101; 102; 103] = map Some [97; 98; 0; 100]
  | _ => False
  end /\ strlen 9 demo 100 = Ok 5 /\ strnlen demo 100 3 = Ok 3 /\ strchr 9 demo 100 99 = Ok (Some 102)
  /\ strchr 9 demo 100 120 = Ok None.
Proof.
  split; [exact demo_string2 |]. split; [intros i Hi; cases i Hi |].
  repeat split; try (vm_compute; first [reflexivity | discriminate]).
Qed.

Definition libc_theorems := (@memcpy_ok, @memmove_ok, @memcmp_ok, @strcmp_ok, @strncmp_ok, @strlen_ok, @strnlen_ok, @strchr_ok, @strlcpy_ok).
Print Assumptions libc_theorems.
