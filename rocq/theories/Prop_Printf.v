(** Theorems about formatted output and the log of realm calls: C63, C64, C65. *)
From Coq Require Import NArith Ascii String List Bool.
From Verif Require Import Printf SpecPrintf PrintfFacts PrintfFacts3 PrintfFacts4.
Import ListNotations.
Local Open Scope N_scope.

(** A memory full of 0xAA, and the text that snprintf leaves at address 100 *)
Definition x_mem : mem := fun _ => 0xAA.
Definition x_print (max : N) (fmt : string) (va : list parg) : option (list N * N * N) :=
  match snprintf x_mem 100 max (str fmt) va with POk (m, n) => Some (text 300 m 100, n, m (100 + max)) | _ => None end.

(** C63: every format and list of arguments either is undefined (an argument is missing or of
    the wrong kind, the format ends within a directive) for all buffers, or stands for a text:
    for every buffer, the call writes this text into the buffer, cut to its size and ended by a
    NUL, changes nothing else (in particular never leaves the local buffer for digits), and
    returns the length of the uncut text. *)
Theorem snprintf_safe : forall fmt va,
  (exists cs, forall m at_ max, max < 2 ^ 64 ->
     exists m', snprintf m at_ max fmt va = POk (m', len cs mod 2 ^ 32) /\ wrote m m' at_ max cs) \/
  (forall m at_ max, snprintf m at_ max fmt va = PUb).
Proof. exact PrintfFacts.snprintf_safe. Qed.
Example snprintf_safe_example :
  x_print 8 "%s=%-4d|%05x" [AStr (str "len"); ANum 42; ANum 0xbeef] = Some (str "len=42 ", 14, 0xAA) /\
  x_print 20 "%s=%-4d|%05x" [AStr (str "len"); ANum 42; ANum 0xbeef] = Some (str "len=42  |0beef", 14, 0xAA) /\
  x_print 50 "%200.200d" [ANum 1] = Some (repeat 32 49, 200, 0xAA) /\
  x_print 50 "%d" [] = None /\ x_print 50 "100%" [] = None.
Proof. vm_compute. auto. Qed.

(** C64: a 64-bit integer printed with any of the flags 0, -, +, space, any width and
    precision, and any of the conversions d, i, u, x, X, o, comes out as the C standard says.
    Not covered: the flag # (wrong, below), - with a precision (wrong, below), precisions above
    31 and zero padding beyond 32 characters (cut by the local buffer), arguments shorter than
    64 bits. *)
Theorem printf_int_partial : forall fl w prec v c signed base upper m at_ max,
  In (c, (signed, base, upper)) conversions -> Forall (fun x => In x (str "0-+ ")) fl ->
  w < 2 ^ 32 -> v < 2 ^ 64 -> max < 2 ^ 64 ->
  match prec with Some p => p <= 31 | None => True end ->
  (has_flag "-" fl || arg_left w = true -> prec = None) -> (has_flag "0" fl = true -> arg_width w <= 32) ->
  exists m' txt,
    snprintf m at_ max (str "%" ++ fl ++ str "*" ++ (match prec with Some _ => str ".*" | None => [] end) ++ str "l" ++ [c])
             (ANum w :: (match prec with Some p => [ANum p] | None => [] end) ++ [ANum v]) = POk (m', len txt) /\
    wrote m m' at_ max txt /\
    in_format upper base (abs64 signed v) (sign signed (sgn64 signed v) (has_flag "+" fl) (has_flag " " fl))
              (has_flag "-" fl || arg_left w) (has_flag "0" fl) (arg_width w) prec txt.
Proof. exact printf_int_ok. Qed.
Example printf_int_example :
  x_print 50 "%0+*ld" [ANum 8; ANum (2 ^ 64 - 1234)] = Some (str "-0001234", 8, 0xAA) /\
  x_print 50 "%*.*lX" [ANum 8; ANum 5; ANum 0xBEEF] = Some (str "   0BEEF", 8, 0xAA) /\
  x_print 50 "%- *li" [ANum 6; ANum 7] = Some (str " 7    ", 6, 0xAA) /\
  x_print 50 "% *li" [ANum (2 ^ 32 - 6); ANum 7] = Some (str " 7    ", 6, 0xAA) /\
  x_print 50 "%*.*lu" [ANum 3; ANum 0; ANum 0] = Some (str "   ", 3, 0xAA).
Proof. vm_compute. auto. Qed.
(** F33: with # and a width that the digits fill exactly, the two highest digits are lost *)
Theorem printf_hash_refuted : x_print 50 "%#4x" [ANum 0xABCD] = Some (str "0xcd", 4, 0xAA).
Proof. vm_compute. reflexivity. Qed.
(** F34: with the flag - the precision is ignored (the standard asks for "007  "), and so are
    digits beyond the local buffer *)
Theorem printf_left_refuted : x_print 50 "%-5.3d" [ANum 7] = Some (str "7    ", 5, 0xAA) /\
  ~ in_format false 10 7 [] true false 5 (Some 3) (str "7    ").
Proof.
  split; [vm_compute; reflexivity|]. intros (ds & (N0 & _ & V & Z) & H). cbn [app] in H.
  destruct ds as [|d ds]; [congruence|]. destruct ds as [|d' ds].
  - vm_compute in H. discriminate.
  - destruct ds as [|d'' ds].
    + vm_compute in H. discriminate.
    + replace (zeros (3 - len (d :: d' :: d'' :: ds))) with (@nil N) in H.
      * cbn [app] in H. change (str "7    ") with [55; 32; 32; 32; 32] in H. injection H as <- <- _ _. vm_compute in V. discriminate.
      * assert (3 - len (d :: d' :: d'' :: ds) = 0) as ->; [|reflexivity].
        apply N.sub_0_le. unfold len. cbn [List.length]. rewrite !Nat2N.inj_succ, <- !N.add_1_l. rewrite !N.add_assoc. apply N.le_add_r.
Qed.
Theorem printf_precision_refuted : x_print 50 "%.40d" [ANum 7] = Some (zeros 31 ++ str "7", 32, 0xAA).
Proof. vm_compute. reflexivity. Qed.

(** C64: strings, with any width and precision *)
Theorem printf_str : forall w p t m at_ max, w < 2 ^ 32 -> p < 2 ^ 31 -> len t < 2 ^ 31 -> max < 2 ^ 64 ->
  let s := firstn (N.to_nat p) t in let gap := blanks (arg_width w - len s) in
  let txt := if arg_left w then s ++ gap else gap ++ s in
  exists m', snprintf m at_ max (str "%*.*s") [ANum w; ANum p; AStr t] = POk (m', len txt) /\ wrote m m' at_ max txt.
Proof. exact printf_str_ok. Qed.
Example printf_str_example : x_print 50 "%*.*s" [ANum (2 ^ 32 - 6); ANum 3; AStr (str "granule")] = Some (str "gra   ", 6, 0xAA).
Proof. vm_compute. reflexivity. Qed.

(** C65: whatever a realm calls with whatever arguments and results, except for the call
    0xC40001A6, no assertion of the logger fails, only the 220 bytes of its buffer are written,
    and they hold the line that names the call with its arguments, its status and its results *)
Theorem rsi_log_partial : forall m id args regs, id < 2 ^ 32 -> id <> 0xC40001A6 ->
  Forall (fun v => v < 2 ^ 64) args -> Forall (fun v => v < 2 ^ 64) regs ->
  exists m' line, rsi_log m id args regs = LOk m' /\ (forall x, BUFFER_SIZE <= x -> m' x = m x) /\
    log_line id args regs line /\ text (N.to_nat BUFFER_SIZE) m' 0 = line.
Proof. exact rsi_log_ok. Qed.
Definition x_log (id : N) (args regs : list N) : option (list N) :=
  match rsi_log x_mem id args regs with LOk m => Some (text 220 m 0) | _ => None end.
Definition x_big : list N := repeat (2 ^ 64 - 1) 10.
Example rsi_log_example :
  x_log 0xC4000197 [0x1000; 0x2000; 1; 0; 5; 6; 7; 8; 9; 10] [0; 0x2000; 0; 3; 4; 5; 6; 7; 8] =
    Some (str "SMC_RSI_IPA_STATE_SET         1000 2000 1 0 > RSI_SUCCESS 2000 0") /\
  x_log 0x84000001 [1; 2; 3; 4; 5; 6; 0xa; 8; 9; 10] [0xf; 1; 2; 3; 4; 5; 6; 7; 8] =
    Some (str "PSCI_84000001                 1 2 3 4 5 6 a > f 1 2 3") /\
  x_log 0xC400019B [] [2 ^ 64 - 1] = Some (str "SMC_RSI_<unsupported>         > ffffffffffffffff") /\
  option_map len (x_log 0xC4000193 x_big (4 :: x_big)) = Some 219.
Proof. vm_compute. auto. Qed.
(** F32: the call SMC_RSI_RDEV_GET_INTERFACE_REPORT of any realm, with any arguments, stops the
    monitor: its name does not fit into the column *)
Theorem rsi_log_refuted : forall m args regs, rsi_log m 0xC40001A6 args regs = LAssert.
Proof. exact rsi_log_stops. Qed.

Definition printf_theorems := (@snprintf_safe, @printf_int_partial, @printf_str, @printf_hash_refuted, @printf_left_refuted,
  @printf_precision_refuted, @rsi_log_partial, @rsi_log_refuted).
Print Assumptions printf_theorems.
