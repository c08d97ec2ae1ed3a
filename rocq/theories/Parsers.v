(** Parsers the library defines by combining the others. *)

From Coq Require Import ZArith List Bool.
From Verif Require Import Base Util Combinators Variadic.
Import ListNotations.
Open Scope Z_scope.

(** [range<From, To>], range.hpp:20-27, and [range_c<From, To>],
    range_c.hpp:20-27 *)
Definition range_c (lo hi : char) : pfun :=
  accept_when one_char (in_range_c lo hi) unexpected_character.

(** [digit], digit.hpp:22-28 *)
Definition digit : pfun :=
  accept_when (change_error_message one_char digit_expected) is_digit
    digit_expected.

(** [digit_val], digit_val.hpp:20 *)
Definition digit_val : pfun := transform digit digit_to_int.

(** [letter], letter.hpp:21-23 *)
Definition letter : pfun := accept_when one_char is_letter letter_expected.

(** [alphanum], alphanum.hpp:19 *)
Definition alphanum (cfg : config) : pfun := one_of cfg [letter; digit].

(** [space], space.hpp:21-23 *)
Definition space : pfun :=
  accept_when one_char is_whitespace whitespace_expected.

(** [spaces], spaces.hpp:18 *)
Definition spaces (n : nat) : pfun := repeated1 n space.

(** [token<P>], token.hpp:21-22 *)
Definition token (cfg : config) (n : nat) (p : pfun) : pfun :=
  first_of cfg [p; repeated n space].

(** [int_], int_.hpp:19 *)
Definition int_ (n : nat) : pfun :=
  foldl1 n digit_val (Some (VInt 0)) next_digit.

(** [entire_input<P, Msg>], entire_input.hpp:19-27 (the specialisation for
    [end_of_input_expected] omits the renaming). *)
Definition entire_input_msg (cfg : config) (p : pfun) (m : msg) : pfun :=
  first_of cfg [p; change_error_message (empty VVoid) m].
Definition entire_input_default (cfg : config) (p : pfun) : pfun :=
  first_of cfg [p; empty VVoid].
Definition entire_input (cfg : config) (p : pfun) (m : msg) : pfun :=
  match m with
  | end_of_input_expected => entire_input_default cfg p
  | _ => entire_input_msg cfg p m
  end.

(** [middle_of<P1, P2, P3>], middle_of.hpp:22-42; [unpaired<Line, Col>] is a
    metafunction class (error/unpaired.hpp:36-43) *)
Definition middle_of (cfg : config) (p1 p2 p3 : pfun) : pfun := fun s ps =>
  nth_of_c cfg 1
    [p1; p2;
     transform_error_message p3
       (fun m => Some (unpaired (line ps) (col ps) m))] s ps.

(** [foldr_reject_incomplete<P, State, BackwardOp>],
    foldr_reject_incomplete.hpp:20-27 *)
Definition foldr_reject_incomplete (cfg : config) (n : nat) (p : pfun)
  (st : value) (f : mf2) : pfun :=
  foldr_start_with_parser n p
    (first_of cfg [return_ st; fail_at_first_char_expected p]) f.

(** [foldr_reject_incomplete1], foldr_reject_incomplete1.hpp:19-32 *)
Definition foldr_reject_incomplete1 (cfg : config) (n : nat) (p : pfun)
  (st : value) (f : mf2) : pfun := fun s ps =>
  match p s ps with
  | Accept _ _ _ => foldr_reject_incomplete cfg n p st f s ps
  | o => o
  end.
