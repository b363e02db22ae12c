(** Formatted output: lib/libc/src/printf.c, as built (lib/libc/CMakeLists.txt:39 disables
    floating point), and the log of the calls of realms: runtime/rsi/logger.c.
    A C string is the list of the codes of its characters before the NUL. *)
From Coq Require Import NArith Ascii String List Bool.
Import ListNotations.
Local Open Scope N_scope.

Fixpoint str (s : string) : list N :=
  match s with EmptyString => [] | String a s => N_of_ascii a :: str s end.
Definition chr (a : ascii) : N := N_of_ascii a.

(** Memory, and the bytes written so far: buffer and idx of _vsnprintf *)
Definition mem := N -> N.
Definition mput (m : mem) (a c : N) : mem := fun x => if x =? a then c else m x.
Record ost := mkO { o_mem : mem; o_idx : N }.
(** _out_buffer, printf.c:148-154, with idx++: [at] is the buffer and [max] its size.
    Simplified: idx does not wrap at 2^64. *)
Definition put (at_ max : N) (c : N) (s : ost) : ost :=
  mkO (if o_idx s <? max then mput (o_mem s) (at_ + o_idx s) c else o_mem s) (o_idx s + 1).

(** The flags, printf.c:119-130 *)
Record pfl := mkFl {
  f_zero : bool; f_left : bool; f_plus : bool; f_space : bool; f_hash : bool; f_upper : bool;
  f_char : bool; f_short : bool; f_long : bool; f_llong : bool; f_prec : bool
}.
Definition fl0 : pfl := mkFl false false false false false false false false false false false.

(** An argument: a register, or a pointer to a string *)
Inductive parg := ANum (v : N) | AStr (s : list N).

(** The end of a call: done; undefined behaviour of the caller (an argument is missing or of
    the wrong kind, or the format ends in the middle of a directive, which is then read
    beyond its end); a write behind the local buffer for digits *)
Inductive pres (A : Type) := POk (a : A) | PUb | POob.
Arguments POk {A}. Arguments PUb {A}. Arguments POob {A}.

Definition len (b : list N) : N := N.of_nat (List.length b).
(** PRINTF_NTOA_BUFFER_SIZE *)
Definition NTOA := 32.
(** buf[len++] = c for the local buffer of _ntoa_long *)
Definition bput (b : list N) (c : N) : option (list N) := if len b <? NTOA then Some (b ++ [c]) else None.

(** _out_rev, printf.c:233-260 *)
Definition pad (at_ max : N) (n : N) (s : ost) : ost := N.iter n (put at_ max (chr " ")) s.
Definition out_rev (at_ max : N) (s : ost) (b : list N) (width : N) (f : pfl) : ost :=
  let s1 := if negb (f_left f) && negb (f_zero f) then pad at_ max (width - len b) s else s in
  let s2 := fold_left (fun s c => put at_ max c s) (rev b) s1 in
  if f_left f then pad at_ max (width - (o_idx s2 - o_idx s)) s2 else s2.

(** printf.c:270-276: while ((len < upto) && (len < PRINTF_NTOA_BUFFER_SIZE)) buf[len++] = '0' *)
Fixpoint zfill (fuel : nat) (b : list N) (upto : N) : option (list N) :=
  match fuel with
  | O => Some b
  | S fuel =>
      if (len b <? upto) && (len b <? NTOA) then
        match bput b (chr "0") with Some b => zfill fuel b upto | None => None end
      else Some b
  end.
Definition guarded (b : list N) (c : option N) : option (list N) :=
  match c with Some c => if len b <? NTOA then bput b c else Some b | None => Some b end.

(** _ntoa_format, printf.c:264-310 *)
Definition ntoa_format (at_ max : N) (s : ost) (b : list N) (neg : bool) (base prec width : N) (f : pfl) : pres ost :=
  let width := if negb (f_left f) && negb (width =? 0) && f_zero f && (neg || f_plus f || f_space f) then width - 1 else width in
  match (if f_left f then Some b else
         match zfill 33 b prec with
         | Some b => if f_zero f then zfill 33 b width else Some b
         | None => None
         end) with
  | None => POob
  | Some b =>
      match
        (if f_hash f then
           let b := if negb (f_prec f) && negb (len b =? 0) && ((len b =? prec) || (len b =? width)) then
                      let b := removelast b in if negb (len b =? 0) && (base =? 16) then removelast b else b
                    else b in
           match guarded b (if base =? 16 then Some (if f_upper f then chr "X" else chr "x")
                            else if base =? 2 then Some (chr "b") else None) with
           | Some b => guarded b (Some (chr "0"))
           | None => None
           end
         else Some b) with
      | None => POob
      | Some b =>
          match guarded b (if neg then Some (chr "-") else if f_plus f then Some (chr "+")
                           else if f_space f then Some (chr " ") else None) with
          | None => POob
          | Some b => POk (out_rev at_ max s b width f)
          end
      end
  end.

(** The digits of a number, lowest first, printf.c:327-335 *)
Definition digit (upper : bool) (d : N) : N :=
  if d <? 10 then chr "0" + d else (if upper then chr "A" else chr "a") + d - 10.
Fixpoint digits (fuel : nat) (b : list N) (v base : N) (upper : bool) : option (list N) :=
  match fuel with
  | O => Some b
  | S fuel =>
      match bput b (digit upper (v mod base)) with
      | None => None
      | Some b =>
          let v := v / base in
          if negb (v =? 0) && (len b <? NTOA) then digits fuel b v base upper else Some b
      end
  end.
(** _ntoa_long and _ntoa_long_long, printf.c:313-373: the same code *)
Definition ntoa (at_ max : N) (s : ost) (v : N) (neg : bool) (base prec width : N) (f : pfl) : pres ost :=
  let f := if v =? 0 then mkFl (f_zero f) (f_left f) (f_plus f) (f_space f) false (f_upper f) (f_char f) (f_short f) (f_long f) (f_llong f) (f_prec f) else f in
  match (if negb (f_prec f) || negb (v =? 0) then digits 33 [] v base (f_upper f) else Some []) with
  | None => POob
  | Some b => ntoa_format at_ max s b neg base prec width f
  end.

(** printf.c:711-736 *)
Fixpoint p_flags (fmt : list N) (f : pfl) : list N * pfl :=
  match fmt with
  | c :: fmt' =>
      if c =? chr "0" then p_flags fmt' (mkFl true (f_left f) (f_plus f) (f_space f) (f_hash f) false false false false false false)
      else if c =? chr "-" then p_flags fmt' (mkFl (f_zero f) true (f_plus f) (f_space f) (f_hash f) false false false false false false)
      else if c =? chr "+" then p_flags fmt' (mkFl (f_zero f) (f_left f) true (f_space f) (f_hash f) false false false false false false)
      else if c =? chr " " then p_flags fmt' (mkFl (f_zero f) (f_left f) (f_plus f) true (f_hash f) false false false false false false)
      else if c =? chr "#" then p_flags fmt' (mkFl (f_zero f) (f_left f) (f_plus f) (f_space f) true false false false false false false)
      else (fmt, f)
  | [] => ([], f)
  end.
(** _is_digit and _atoi, printf.c:213-230 *)
Definition is_digit (c : N) : bool := (chr "0" <=? c) && (c <=? chr "9").
Fixpoint atoi (fmt : list N) (i : N) : list N * N :=
  match fmt with
  | c :: fmt' => if is_digit c then atoi fmt' ((i * 10 + (c - chr "0")) mod 2 ^ 32) else (fmt, i)
  | [] => ([], i)
  end.
Definition set_left (f : pfl) : pfl :=
  mkFl (f_zero f) true (f_plus f) (f_space f) (f_hash f) (f_upper f) (f_char f) (f_short f) (f_long f) (f_llong f) (f_prec f).
Definition set_prec (f : pfl) : pfl :=
  mkFl (f_zero f) (f_left f) (f_plus f) (f_space f) (f_hash f) (f_upper f) (f_char f) (f_short f) (f_long f) (f_llong f) true.
(** printf.c:738-753. The negation of the least int is 2^31. *)
Definition p_width (fmt : list N) (f : pfl) (va : list parg) : pres (list N * pfl * N * list parg) :=
  match fmt with
  | c :: fmt' =>
      if is_digit c then let '(r, w) := atoi fmt 0 in POk (r, f, w, va)
      else if c =? chr "*" then
        match va with
        | ANum v :: va =>
            let w := v mod 2 ^ 32 in
            if 2 ^ 31 <=? w then POk (fmt', set_left f, 2 ^ 32 - w, va) else POk (fmt', f, w, va)
        | _ => PUb
        end
      else POk (fmt, f, 0, va)
  | [] => POk ([], f, 0, va)
  end.
(** printf.c:755-768 *)
Definition p_precision (fmt : list N) (f : pfl) (va : list parg) : pres (list N * pfl * N * list parg) :=
  match fmt with
  | c :: fmt' =>
      if c =? chr "." then
        let f := set_prec f in
        match fmt' with
        | d :: fmt'' =>
            if is_digit d then let '(r, p) := atoi fmt' 0 in POk (r, f, p, va)
            else if d =? chr "*" then
              match va with
              | ANum v :: va =>
                  let p := v mod 2 ^ 32 in
                  POk (fmt'', f, (if 2 ^ 31 <=? p then 0 else p), va)
              | _ => PUb
              end
            else POk (fmt', f, 0, va)
        | [] => POk ([], f, 0, va)
        end
      else POk (fmt, f, 0, va)
  | [] => POk ([], f, 0, va)
  end.
(** printf.c:770-804 *)
Definition with_len (f : pfl) (ch sh lo ll : bool) : pfl :=
  mkFl (f_zero f) (f_left f) (f_plus f) (f_space f) (f_hash f) (f_upper f) ch sh lo ll (f_prec f).
Definition p_length (fmt : list N) (f : pfl) : list N * pfl :=
  match fmt with
  | c :: fmt' =>
      if c =? chr "l" then
        match fmt' with
        | d :: fmt'' => if d =? chr "l" then (fmt'', with_len f false false true true) else (fmt', with_len f false false true false)
        | [] => ([], with_len f false false true false)
        end
      else if c =? chr "h" then
        match fmt' with
        | d :: fmt'' => if d =? chr "h" then (fmt'', with_len f true true false false) else (fmt', with_len f false true false false)
        | [] => ([], with_len f false true false false)
        end
      else if (c =? chr "t") || (c =? chr "j") || (c =? chr "z") then (fmt', with_len f false false true false)
      else (fmt, f)
  | [] => ([], f)
  end.

(** The value of a signed argument, printf.c:841-857: whether it is negative, and its
    absolute value. char is unsigned on AArch64. *)
Definition signed_arg (f : pfl) (v : N) : bool * N :=
  let bits := if f_llong f || f_long f then 64 else if f_char f then 32 else if f_short f then 16 else 32 in
  let v := if f_llong f || f_long f then v mod 2 ^ 64 else if f_char f then v mod 2 ^ 8 else v mod 2 ^ bits in
  if 2 ^ (bits - 1) <=? v then (true, 2 ^ bits - v) else (false, v).
(** printf.c:858-872 *)
Definition unsigned_arg (f : pfl) (v : N) : N :=
  if f_llong f || f_long f then v mod 2 ^ 64
  else if f_char f then v mod 2 ^ 8 else if f_short f then v mod 2 ^ 16 else v mod 2 ^ 32.

(** printf.c:806-986: one directive after its flags, width, precision and length.
    A string is read up to its NUL or as far as the precision (the one character that is read
    beyond the precision, 206 and 939, is not modelled). *)
Definition directive (at_ max : N) (s : ost) (c : N) (f : pfl) (width prec : N) (va : list parg) : pres (ost * list parg) :=
  let ret := fun r va => match r with POk s => POk (s, va) | PUb => PUb | POob => POob end in
  if (c =? chr "d") || (c =? chr "i") || (c =? chr "u") || (c =? chr "x") || (c =? chr "X") || (c =? chr "o") || (c =? chr "b") then
    match va with
    | ANum v :: va =>
        let sgn := (c =? chr "i") || (c =? chr "d") in
        let base := if (c =? chr "x") || (c =? chr "X") then 16 else if c =? chr "o" then 8 else if c =? chr "b" then 2 else 10 in
        let f := mkFl (if f_prec f then false else f_zero f) (f_left f) (sgn && f_plus f) (sgn && f_space f)
                      (if base =? 10 then false else f_hash f) (f_upper f || (c =? chr "X"))
                      (f_char f) (f_short f) (f_long f) (f_llong f) (f_prec f) in
        if sgn then let '(neg, a) := signed_arg f v in ret (ntoa at_ max s a neg base prec width f) va
        else ret (ntoa at_ max s (unsigned_arg f v) false base prec width f) va
    | _ => PUb
    end
  else if c =? chr "c" then
    match va with
    | ANum v :: va =>
        let s1 := if f_left f then s else pad at_ max (width - 1) s in
        let s2 := put at_ max (v mod 2 ^ 8) s1 in
        POk (if f_left f then pad at_ max (width - 1) s2 else s2, va)
    | _ => PUb
    end
  else if c =? chr "s" then
    match va with
    | AStr p :: va =>
        let p := if f_prec f then firstn (N.to_nat (N.min prec (len p))) p else p in
        let s1 := if f_left f then s else pad at_ max (width - len p) s in
        let s2 := fold_left (fun s c => put at_ max c s) p s1 in
        POk (if f_left f then pad at_ max (width - len p) s2 else s2, va)
    | _ => PUb
    end
  else if c =? chr "p" then
    match va with
    | ANum v :: va =>
        let f := mkFl true (f_left f) (f_plus f) (f_space f) (f_hash f) true (f_char f) (f_short f) (f_long f) (f_llong f) (f_prec f) in
        ret (ntoa at_ max s (v mod 2 ^ 64) false 16 prec 16 f) va
    | _ => PUb
    end
  else POk (put at_ max c s, va).

(** The loop of _vsnprintf, printf.c:697-986: every round takes at least one character *)
Fixpoint vloop (fuel : nat) (at_ max : N) (s : ost) (fmt : list N) (va : list parg) : pres ost :=
  match fuel with
  | O => POk s
  | S fuel =>
      match fmt with
      | [] => POk s
      | c :: fmt =>
          if negb (c =? chr "%") then vloop fuel at_ max (put at_ max c s) fmt va
          else
            let '(fmt, f) := p_flags fmt fl0 in
            match p_width fmt f va with
            | POk (fmt, f, width, va) =>
                match p_precision fmt f va with
                | POk (fmt, f, prec, va) =>
                    let '(fmt, f) := p_length fmt f in
                    match fmt with
                    | c :: fmt =>
                        match directive at_ max s c f width prec va with
                        | POk (s, va) => vloop fuel at_ max s fmt va
                        | PUb => PUb
                        | POob => POob
                        end
                    | [] => PUb
                    end
                | PUb => PUb
                | POob => POob
                end
            | PUb => PUb
            | POob => POob
            end
      end
  end.
(** snprintf_, printf.c:1012-1023, and the end of _vsnprintf, 988-992: the result is idx, as
    an int *)
Definition snprintf (m : mem) (at_ max : N) (fmt : list N) (va : list parg) : pres (mem * N) :=
  match vloop (List.length fmt) at_ max (mkO m 0) fmt va with
  | POk s =>
      let i := if o_idx s <? max then o_idx s else (max + (2 ^ 64 - 1)) mod 2 ^ 64 in
      POk (if i <? max then mput (o_mem s) (at_ + i) 0 else o_mem s, o_idx s mod 2 ^ 32)
  | PUb => PUb
  | POob => POob
  end.

(** memset *)
Definition memset (m : mem) (at_ c n : N) : mem := fun x => if (at_ <=? x) && (x <? at_ + n) then c else m x.

(** rsi_logger, logger.c:41-67: offset from SMC_RSI_VERSION, name, number of arguments and of
    results; all other entries are 0 *)
Definition rsi_table : list (N * (list N * N * N)) := [
  (0x00, (str "_VERSION", 1, 2));
  (0x01, (str "_FEATURES", 1, 1));
  (0x02, (str "_MEASUREMENT_READ", 1, 8));
  (0x03, (str "_MEASUREMENT_EXTEND", 10, 0));
  (0x04, (str "_ATTEST_TOKEN_INIT", 8, 1));
  (0x05, (str "_ATTEST_TOKEN_CONTINUE", 3, 1));
  (0x06, (str "_REALM_CONFIG", 1, 0));
  (0x07, (str "_IPA_STATE_SET", 4, 2));
  (0x08, (str "_IPA_STATE_GET", 2, 2));
  (0x09, (str "_HOST_CALL", 1, 0));
  (0x10, (str "_MEM_GET_PERM_VALUE", 2, 1));
  (0x11, (str "_MEM_SET_PERM_INDEX", 4, 3));
  (0x12, (str "_MEM_SET_PERM_VALUE", 3, 0));
  (0x13, (str "_PLANE_ENTER", 2, 0));
  (0x14, (str "_RDEV_CONTINUE", 2, 0));
  (0x15, (str "_RDEV_GET_INFO", 2, 0));
  (0x16, (str "_RDEV_GET_INTERFACE_REPORT", 3, 1));
  (0x17, (str "_RDEV_GET_MEASUREMENTS", 3, 0));
  (0x18, (str "_RDEV_GET_STATE", 2, 1));
  (0x19, (str "_RDEV_LOCK", 2, 0));
  (0x1A, (str "_RDEV_START", 2, 0));
  (0x1B, (str "_RDEV_STOP", 2, 0));
  (0x1C, (str "_RDEV_VALIDATE_MAPPING", 6, 2));
  (0x1E, (str "_PLANE_REG_READ", 2, 1));
  (0x1F, (str "_PLANE_REG_WRITE", 3, 0))].
Fixpoint rsi_lookup (t : list (N * (list N * N * N))) (i : N) : option (list N) * N * N :=
  match t with
  | [] => (None, 0, 0)
  | (j, (n, a, v)) :: t => if j =? i then (Some n, a, v) else rsi_lookup t i
  end.
(** rsi_status_string, logger.c:71-78 *)
Definition rsi_status (i : N) : list N :=
  match i with
  | 0 => str "SUCCESS" | 1 => str "ERROR_INPUT" | 2 => str "ERROR_STATE"
  | 3 => str "INCOMPLETE" | 4 => str "ERROR_UNKNOWN" | _ => str "ERROR_DEVICE"
  end.
(** logger.c:15-24 *)
Definition MAX_NAME_LEN := 29.
Definition BUFFER_SIZE := MAX_NAME_LEN + 10 * 17 + 3 + 18.
(** SMC_RSI_VERSION, SMC_RSI_PLANE_REG_WRITE, and the ranges for PSCI: smc-rsi.h:101,295,
    smc.h:77-82 *)
Definition RSI_FIRST := 0xC4000190.
Definition RSI_LAST := 0xC40001AF.
Definition is_psci (id : N) : bool :=
  (0x84000000 <=? id) && (id <=? 0x84000014) || (0xC4000000 <=? id) && (id <=? 0xC4000014).

(** The end of a call of the logger: the buffer, a failing assertion, or undefined behaviour *)
Inductive lres (A : Type) := LOk (a : A) | LAssert | LUb.
Arguments LOk {A}. Arguments LAssert {A}. Arguments LUb {A}.

(** snprintf(buf, len, " %lx", v) for all values, with the assertion on the result:
    logger.c:127-132 and 183-189. The position in the buffer and what is left of it. *)
Fixpoint print_vals (m : mem) (at_ room : N) (vs : list N) : lres (mem * N * N) :=
  match vs with
  | [] => LOk (m, at_, room)
  | v :: vs =>
      match snprintf m at_ room (str " %lx") [ANum v] with
      | POk (m, cnt) => if (0 <? cnt) && (cnt <? room) then print_vals m (at_ + cnt) (room - cnt) vs else LAssert
      | _ => LUb
      end
  end.
(** print_entry, logger.c:87-135 *)
Definition print_entry (m : mem) (id : N) (args : list N) : lres (mem * N * N) :=
  let '(r, num) :=
    if (RSI_FIRST <=? id) && (id <=? RSI_LAST) then
      let '(name, a, _) := rsi_lookup rsi_table (id - RSI_FIRST) in
      (match name with
       | Some n => snprintf m 0 (MAX_NAME_LEN + 1) (str "%s%s") [AStr (str "SMC_RSI"); AStr n]
       | None => snprintf m 0 (MAX_NAME_LEN + 1) (str "%s") [AStr (str "SMC_RSI_<unsupported>")]
       end, a)
    else if is_psci id then (snprintf m 0 (MAX_NAME_LEN + 1) (str "%s%08x") [AStr (str "PSCI_"); ANum id], 7)
    else (snprintf m 0 (MAX_NAME_LEN + 1) (str "%s%08x") [AStr (str "SMC_"); ANum id], 7) in
  match r with
  | POk (m, cnt) =>
      if (0 <? cnt) && (cnt <? MAX_NAME_LEN + 1) then
        print_vals (memset m cnt 0x20 (MAX_NAME_LEN - cnt)) MAX_NAME_LEN (BUFFER_SIZE - MAX_NAME_LEN) (firstn (N.to_nat num) args)
      else LAssert
  | _ => LUb
  end.
(** rsi_log_on_exit, logger.c:157-192, with print_status and print_code: the buffer that is
    then printed with "%s\n" *)
Definition rsi_log (m : mem) (id : N) (args regs : list N) : lres mem :=
  match print_entry m id args with
  | LOk (m, at_, room) =>
      let x0 := nth 0 regs 0 in
      let rsi := (RSI_FIRST <=? id) && (id <=? RSI_LAST) in
      let num := if rsi then snd (rsi_lookup rsi_table (id - RSI_FIRST)) else 3 in
      match (if rsi && (x0 mod 2 ^ 8 <? 6)
             then snprintf m at_ room (str " > RSI_%s") [AStr (rsi_status (x0 mod 2 ^ 8))]
             else snprintf m at_ room (str " > %lx") [ANum x0]) with
      | POk (m, cnt) =>
          if (0 <? cnt) && (cnt <? room) then
            match print_vals m (at_ + cnt) (room - cnt) (firstn (N.to_nat num) (tl regs)) with
            | LOk (m, _, _) => LOk m
            | LAssert => LAssert
            | LUb => LUb
            end
          else LAssert
      | _ => LUb
      end
  | LAssert => LAssert
  | LUb => LUb
  end.
(** The text in a buffer of n bytes, up to the NUL *)
Fixpoint text (n : nat) (m : mem) (at_ : N) : list N :=
  match n with
  | O => []
  | S n => if m at_ =? 0 then [] else m at_ :: text n m (at_ + 1)
  end.
