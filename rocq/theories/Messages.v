(** The texts of the error messages and the report of debug_parsing_error. *)

From Coq Require Import ZArith List Bool Decimal Ascii String.
From Verif Require Import Base Combinators.
Import ListNotations.
Open Scope Z_scope.

(** A string literal of the C++ source *)
Definition literal (s : string) : str :=
  map (fun a => Z.of_nat (nat_of_ascii a)) (list_ascii_of_string s).
Arguments literal s%string_scope.

(** [operator<<(std::ostream&, int)] with the default flags: decimal digits
    after an optional minus sign (the standard library of Coq provides the
    digits). *)
Fixpoint uint_chars (u : uint) : str :=
  match u with
  | Nil => []
  | D0 l => 48 :: uint_chars l
  | D1 l => 49 :: uint_chars l
  | D2 l => 50 :: uint_chars l
  | D3 l => 51 :: uint_chars l
  | D4 l => 52 :: uint_chars l
  | D5 l => 53 :: uint_chars l
  | D6 l => 54 :: uint_chars l
  | D7 l => 55 :: uint_chars l
  | D8 l => 56 :: uint_chars l
  | D9 l => 57 :: uint_chars l
  end.
Definition print_int (n : Z) : str :=
  match Z.to_int n with
  | Pos u => uint_chars u
  | Neg u => 45 :: uint_chars u
  end.

(** [get_value()] of the error classes, error/*.hpp and define_error.hpp:14-22.
    [user] gives the texts of the errors the user defined. *)
Fixpoint get_value (user : nat -> str) (m : msg) : str :=
  match m with
  | digit_expected => literal "Digit expected"
      (* error/digit_expected.hpp:18 *)
  | end_of_input_expected => literal "End of input expected"
      (* error/end_of_input_expected.hpp:18-21 *)
  | expected_to_fail => literal "Parser expected to fail"
      (* error/expected_to_fail.hpp:18-21 *)
  | index_out_of_range from to n =>
      (* error/index_out_of_range.hpp:21-34 *)
      literal "index (" ++ print_int n ++ literal ") out of range ["
        ++ print_int from ++ literal "-" ++ print_int to ++ literal "]"
  | letter_expected => literal "Letter expected"
      (* error/letter_expected.hpp:18 *)
  | literal_expected c => literal "Expected: " ++ [c]
      (* error/literal_expected.hpp:19-28 *)
  | none_of_the_expected_cases_found => literal "None of the expected cases found"
      (* error/none_of_the_expected_cases_found.hpp:18-21 *)
  | unexpected_character => literal "Unexpected character"
      (* error/unexpected_character.hpp:18-21 *)
  | unexpected_end_of_input => literal "Unexpected end of input"
      (* error/unexpected_end_of_input.hpp:18-21 *)
  | unpaired l c m' =>
      (* error/unpaired.hpp:23-34 *)
      get_value user m' ++ literal " (see " ++ print_int l ++ literal ":"
        ++ print_int c ++ literal ")"
  | whitespace_expected => literal "Whitespace expected"
      (* error/whitespace_expected.hpp:18-21 *)
  | UserMsg n => user n
  end.

(** [std::cout << c_str<S>::type::value]: an array of characters is printed up
    to the first 0. *)
Fixpoint print_c_str (s : str) : str :=
  match s with
  | [] => []
  | c :: s' => if c =? 0 then [] else c :: print_c_str s'
  end.

Definition endl : str := [10].

(** [display_error::run] and [display_no_error::run],
    debug_parsing_error.hpp:49-81; [None]: not well-formed or not finished *)
Definition display (user : nat -> str) (o : outcome) : option str :=
  match o with
  | Reject m ps =>
      Some (literal "Parsing failed:" ++ endl
        ++ literal "line " ++ print_int (line ps)
        ++ literal ", col " ++ print_int (col ps)
        ++ literal ": " ++ get_value user m ++ endl)
  | Accept _ rem _ =>
      Some (literal "Parsing was successful. Remaining string is:" ++ endl
        ++ print_c_str rem ++ endl)
  | Illformed => None
  | OutOfFuel => None
  end.

(** The constructor of [debug_parsing_error<P, S>],
    debug_parsing_error.hpp:26-46: what is written to the standard output *)
Definition debug_parsing_error (user : nat -> str) (p : pfun) (s : str) : option str :=
  match display user (p s start) with
  | Some report =>
      Some (literal "Compile-time parsing results" ++ endl
        ++ literal "----------------------------" ++ endl
        ++ literal "Input text:" ++ endl
        ++ print_c_str s ++ endl
        ++ endl
        ++ report)
  | None => None
  end.
