(** What is asked of formatted output, independent of how it is made. *)
From Coq Require Import NArith Ascii String List Bool.
From Verif Require Import Printf.
Import ListNotations.
Local Open Scope N_scope.

(** Memory m' is memory m with the text [cs] put into the [max] bytes at [at_]: nothing else
    changes, and the text is cut where it does not fit and ends with a NUL *)
Definition wrote (m m' : mem) (at_ max : N) (cs : list N) : Prop :=
  (forall x, x < at_ \/ at_ + max <= x -> m' x = m x) /\
  (0 < max -> let k := N.min (len cs) (max - 1) in
     (forall i, i < k -> m' (at_ + i) = nth (N.to_nat i) cs 0) /\ m' (at_ + k) = 0).

(** The value of a digit, and of a list of digits *)
Definition dig (c : N) : option N :=
  if (chr "0" <=? c) && (c <=? chr "9") then Some (c - chr "0")
  else if (chr "a" <=? c) && (c <=? chr "f") then Some (c - chr "a" + 10)
  else if (chr "A" <=? c) && (c <=? chr "F") then Some (c - chr "A" + 10)
  else None.
Fixpoint value (base acc : N) (l : list N) : option N :=
  match l with
  | [] => Some acc
  | c :: l => match dig c with Some d => if d <? base then value base (acc * base + d) l else None | None => None end
  end.
(** Letters in digits are all of one case *)
Definition in_case (upper : bool) (c : N) : Prop :=
  if upper then ~ (chr "a" <= c <= chr "f") else ~ (chr "A" <= c <= chr "F").
(** [l] is the usual way to write v: digits of this base, without leading zeros *)
Definition numeral (upper : bool) (base v : N) (l : list N) : Prop :=
  l <> [] /\ Forall (in_case upper) l /\ value base 0 l = Some v /\ (hd 0 l = chr "0" -> l = [chr "0"]).

(** An integer in the format asked for, as in the C standard (7.21.6.1): precision, sign,
    padding *)
Definition blanks (n : N) : list N := repeat (chr " ") (N.to_nat n).
Definition zeros (n : N) : list N := repeat (chr "0") (N.to_nat n).
Definition sign (signed neg plus space : bool) : list N :=
  if negb signed then [] else if neg then [chr "-"] else if plus then [chr "+"] else if space then [chr " "] else [].
Definition in_format (upper : bool) (base v : N) (sg : list N) (minus zero : bool) (width : N) (prec : option N) (l : list N) : Prop :=
  exists ds, (match prec with Some 0 => if v =? 0 then ds = [] else numeral upper base v ds | _ => numeral upper base v ds end) /\
    let ds := zeros (match prec with Some p => p | None => 0 end - len ds) ++ ds in
    let gap := width - len (sg ++ ds) in
    l = if minus then sg ++ ds ++ blanks gap
        else if zero && match prec with Some _ => false | None => true end then sg ++ zeros gap ++ ds
        else blanks gap ++ sg ++ ds.
(** The conversions of integers: the letter, whether it is signed, the base, the case *)
Definition conversions : list (N * (bool * N * bool)) :=
  [(chr "d", (true, 10, false)); (chr "i", (true, 10, false)); (chr "u", (false, 10, false));
   (chr "x", (false, 16, false)); (chr "X", (false, 16, true)); (chr "o", (false, 8, false))].
(** Sign and absolute value of a 64-bit register *)
Definition sgn64 (signed : bool) (v : N) : bool := signed && (2 ^ 63 <=? v).
Definition abs64 (signed : bool) (v : N) : N := if sgn64 signed v then 2 ^ 64 - v else v.
Definition has_flag (c : ascii) (fl : list N) : bool := existsb (N.eqb (chr c)) fl.

(** A width that is an argument: an int; if it is negative it stands for - and its absolute
    value *)
Definition arg_left (w : N) : bool := 2 ^ 31 <=? w.
Definition arg_width (w : N) : N := if arg_left w then 2 ^ 32 - w else w.

(** The line of the log for a call of a realm *)
Definition call_name (id : N) (nm : list N) : Prop :=
  if (RSI_FIRST <=? id) && (id <=? RSI_LAST) then
    nm = match fst (fst (rsi_lookup rsi_table (id - RSI_FIRST))) with
         | Some n => str "SMC_RSI" ++ n
         | None => str "SMC_RSI_<unsupported>"
         end
  else exists l, List.length l = 8%nat /\ value 16 0 l = Some id /\
    nm = (if is_psci id then str "PSCI_" else str "SMC_") ++ l.
Definition log_line (id : N) (args regs : list N) (line : list N) : Prop :=
  let rsi := (RSI_FIRST <=? id) && (id <=? RSI_LAST) in
  let '(_, na, nv) := if rsi then rsi_lookup rsi_table (id - RSI_FIRST) else (None, 7, 3) in
  exists nm ps st rs,
    call_name id nm /\
    Forall2 (numeral false 16) (firstn (N.to_nat na) args) ps /\
    Forall2 (numeral false 16) (firstn (N.to_nat nv) (tl regs)) rs /\
    (if rsi && (nth 0 regs 0 mod 2 ^ 8 <? 6) then st = str "RSI_" ++ rsi_status (nth 0 regs 0 mod 2 ^ 8)
     else numeral false 16 (nth 0 regs 0) st) /\
    line = nm ++ blanks (29 - len nm) ++ concat (map (cons (chr " ")) ps) ++ str " > " ++ st ++ concat (map (cons (chr " ")) rs).
