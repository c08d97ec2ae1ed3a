(** util/*.hpp: character classes and digit conversions; impl/*.hpp function
    objects used by the parsers. *)

From Coq Require Import ZArith List Bool.
From Verif Require Import Base.
Import ListNotations.
Open Scope Z_scope.

(** [in_range_c<T, LowerBound, UpperBound>::apply<Item>],
    util/in_range_c.hpp:19-31 (and util/in_range.hpp:24-34 on integral
    constants). *)
Definition in_range_c (lo hi : Z) : pred1 := fun v =>
  match as_int v with
  | Some n => Some ((lo <=? n) && (n <=? hi))
  | None => None
  end.

(** util/is_digit.hpp:21-22: '0'..'9' *)
Definition is_digit : pred1 := in_range_c 48 57.

(** util/is_lcase_letter.hpp:21-22: 'a'..'z' *)
Definition is_lcase_letter : pred1 := in_range_c 97 122.

(** util/is_ucase_letter.hpp:21-22: 'A'..'Z' *)
Definition is_ucase_letter : pred1 := in_range_c 65 90.

(** util/is_letter.hpp:23-28 *)
Definition is_letter : pred1 := fun v =>
  match is_lcase_letter v, is_ucase_letter v with
  | Some a, Some b => Some (a || b)
  | _, _ => None
  end.

(** util/is_whitespace_c.hpp:19-25: ' ', '\r', '\n', '\t' *)
Definition is_whitespace_c (c : char) : bool :=
  (c =? 32) || (c =? 13) || (c =? 10) || (c =? 9).

(** util/is_whitespace.hpp:21-22 *)
Definition is_whitespace : pred1 := fun v =>
  match as_int v with
  | Some c => Some (is_whitespace_c c)
  | None => None
  end.

(** util/digit_to_int_c.hpp:21-33: the result is the class
    [error::digit_expected] for characters that are not digits. *)
Definition digit_to_int_c (c : char) : value :=
  if c =? 48 then VInt 0
  else if c =? 49 then VInt 1
  else if c =? 50 then VInt 2
  else if c =? 51 then VInt 3
  else if c =? 52 then VInt 4
  else if c =? 53 then VInt 5
  else if c =? 54 then VInt 6
  else if c =? 55 then VInt 7
  else if c =? 56 then VInt 8
  else if c =? 57 then VInt 9
  else VErr digit_expected.

(** util/digit_to_int.hpp:21-22 *)
Definition digit_to_int : mf1 := fun v =>
  match as_int v with
  | Some c => Some (digit_to_int_c c)
  | None => None
  end.

(** util/int_to_digit_c.hpp:19-31: only declared for other numbers. *)
Definition int_to_digit_c (n : Z) : option value :=
  if n =? 0 then Some (VChar 48)
  else if n =? 1 then Some (VChar 49)
  else if n =? 2 then Some (VChar 50)
  else if n =? 3 then Some (VChar 51)
  else if n =? 4 then Some (VChar 52)
  else if n =? 5 then Some (VChar 53)
  else if n =? 6 then Some (VChar 54)
  else if n =? 7 then Some (VChar 55)
  else if n =? 8 then Some (VChar 56)
  else if n =? 9 then Some (VChar 57)
  else None.

(** util/int_to_digit.hpp:21-22 *)
Definition int_to_digit : mf1 := fun v =>
  match as_int v with
  | Some n => int_to_digit_c n
  | None => None
  end.

(** impl/is_char_c.hpp:19-26 *)
Definition is_char_c (c : char) : pred1 := fun v =>
  match as_int v with
  | Some n => Some (n =? c)
  | None => None
  end.

(** The largest and the smallest [int]. *)
Definition int_max : Z := 2147483647.
Definition int_min : Z := -2147483648.
Definition int_ok (n : Z) : bool := (int_min <=? n) && (n <=? int_max).

(** impl/next_digit.hpp:19-29.  [PartialResult * 10 + NextDigit] is a constant
    expression of type [int]; overflow in it (also in the intermediate product)
    makes the program ill-formed. *)
Definition next_digit : mf2 := fun partial d =>
  match as_int partial, as_int d with
  | Some p, Some k =>
      if int_ok (p * 10) && int_ok (p * 10 + k)
      then Some (VInt (p * 10 + k)) else None
  | _, _ => None
  end.

(** [mpl::push_back] on the values of the model: mpl sequences and
    metaparse::string (cpp11/string.hpp:54-66). *)
Definition push_back (l x : value) : option value :=
  match l with
  | VSeq vs => Some (VSeq (vs ++ [x]))
  | VStr s => match as_int x with Some c => Some (VStr (s ++ [c])) | None => None end
  | _ => None
  end.

(** [mpl::push_front] (cpp11/string.hpp:85-97). *)
Definition push_front (l x : value) : option value :=
  match l with
  | VSeq vs => Some (VSeq (x :: vs))
  | VStr s => match as_int x with Some c => Some (VStr (c :: s)) | None => None end
  | _ => None
  end.

(** impl/back_inserter.hpp:19-25 *)
Definition back_inserter : mf2 := push_back.

(** impl/front_inserter.hpp:19-25 *)
Definition front_inserter : mf2 := push_front.

(** swap.hpp:15-22 *)
Definition swap (f : mf2) : mf2 := fun a b => f b a.

(** [mpl::at_c<l, n>] *)
Definition at_c (l : value) (n : nat) : option value :=
  match l with
  | VSeq vs => nth_error vs n
  | _ => None
  end.
