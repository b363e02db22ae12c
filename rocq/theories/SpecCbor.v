(** CBOR data items and a decoder after RFC 8949, 3, independent of the encoder: definite
    lengths, heads of any length, no floats and simple values. *)
From Coq Require Import NArith List Bool Ascii String.
Import ListNotations.
Local Open Scope N_scope.

Inductive item :=
| UInt (n : N)
| NInt (n : N)                (* -1 - n *)
| Bytes (l : list N)
| Text (l : list N)
| Array (l : list item)
| Map (l : list (item * item))
| Tag (t : N) (i : item).

Definition val (l : list N) : N := fold_left (fun a b => a * 256 + b) l 0.
(** The first n bytes and the rest *)
Definition take (n : N) (l : list N) : option (list N * list N) :=
  if N.of_nat (List.length l) <? n then None else Some (firstn (N.to_nat n) l, skipn (N.to_nat n) l).
(** Major type, argument, rest *)
Definition get_head (l : list N) : option (N * N * list N) :=
  match l with
  | [] => None
  | b :: l =>
      let mt := b / 32 in let ai := b mod 32 in
      if ai <? 24 then Some (mt, ai, l)
      else if ai <? 28 then match take (2 ^ (ai - 24)) l with Some (v, r) => Some (mt, val v, r) | None => None end
      else None
  end.
Fixpoint many (d : list N -> option (item * list N)) (n : nat) (l : list N) : option (list item * list N) :=
  match n with
  | O => Some ([], l)
  | S n => match d l with
           | Some (i, l) => match many d n l with Some (is, l) => Some (i :: is, l) | None => None end
           | None => None
           end
  end.
Fixpoint pairs (l : list item) : list (item * item) :=
  match l with
  | a :: b :: l => (a, b) :: pairs l
  | _ => []
  end.
(** [depth] bounds the nesting *)
Fixpoint decode (depth : nat) (l : list N) : option (item * list N) :=
  match depth with
  | O => None
  | S depth =>
      match get_head l with
      | None => None
      | Some (mt, n, l) =>
          if mt =? 0 then Some (UInt n, l)
          else if mt =? 1 then Some (NInt n, l)
          else if mt =? 2 then match take n l with Some (v, r) => Some (Bytes v, r) | None => None end
          else if mt =? 3 then match take n l with Some (v, r) => Some (Text v, r) | None => None end
          else if mt =? 4 then match many (decode depth) (N.to_nat n) l with Some (is, r) => Some (Array is, r) | None => None end
          else if mt =? 5 then match many (decode depth) (N.to_nat (2 * n)) l with Some (is, r) => Some (Map (pairs is), r) | None => None end
          else if mt =? 6 then match decode depth l with Some (i, r) => Some (Tag n i, r) | None => None end
          else None
      end
  end.

(** The whole of l is one item *)
Definition is_item (l : list N) (i : item) : Prop := decode 8 l = Some (i, []).
