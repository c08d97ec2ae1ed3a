(** The smaller programs of example/: rational, minimal_rational,
    binary_number, constexpr_parser, regexp and parsing_error. *)

From Coq Require Import ZArith List Bool.
From Verif Require Import Base Util Combinators Variadic Parsers Deep Calculator.
Import ListNotations.
Open Scope Z_scope.

(** ** example/rational/main.cpp and example/minimal_rational/main.cpp *)

(** [rational<Num, Denom>], rational/main.cpp:35-44 (the same in
    minimal_rational/main.cpp:29-38).  Its [run], which calls the constructor of
    [boost::rational<int>], is not modelled. *)
Definition rational : list value -> value := VTmpl 0.

(** [rational_grammar], rational/main.cpp:46-56 *)
Definition rational_grammar : pexpr :=
  PSequenceApply rational
    [PToken PInt; POneOf [PLastOf [PLitC 47; PToken PInt]; PEmpty (VInt 1)]].
(** [rational_parser], rational/main.cpp:58, without [build_parser] *)
Definition rational_parser : pexpr := PEntireInput rational_grammar end_of_input_expected.

(** [rational_grammar], minimal_rational/main.cpp:40-47 *)
Definition minimal_rational_grammar : pexpr :=
  PSequenceApply rational [PToken PInt; PLastOf [PLitC 47; PToken PInt]].
(** [rational_parser], minimal_rational/main.cpp:49, without [build_parser] *)
Definition minimal_rational_parser : pexpr :=
  PEntireInput minimal_rational_grammar end_of_input_expected.

(** ** example/binary_number/main.cpp *)

(** [next_element], 39-43 *)
Definition next_element : mf2 := fun acc b =>
  match mpl_times acc (VInt 2) with
  | Some x => mpl_plus x b
  | None => None
  end.
(** [S], 45-47 *)
Definition binary_grammar : pexpr :=
  PFoldl1 (PTransform (POneOfC [48; 49]) digit_to_int) (Some (VInt 0)) next_element.
(** [binary_parser], 49, without [build_parser] *)
Definition binary_parser : pexpr := PEntireInput binary_grammar end_of_input_expected.

(** ** example/constexpr_parser/main.cpp *)

(** [parsed], 70-92 *)
Record parsed : Type := mkparsed { a_count1 : Z; b_count : Z; a_count2 : Z }.
(** [parsed::build], 72-81 *)
Definition parsed_build (v : value) : option parsed :=
  match at_c v 0, at_c v 1, at_c v 2 with
  | Some x, Some y, Some z =>
      match as_int x, as_int y, as_int z with
      | Some a, Some b, Some c => Some (mkparsed a b c)
      | _, _, _ => None
      end
  | _, _, _ => None
  end.

(** [const_list<char, Len>], 102-136, is a list of length [Len]; [at], 118-121
    and 132-135 *)
Fixpoint const_list_at (l : list char) (n : Z) : char :=
  match l with
  | [] => 0
  | h :: t => if n =? 0 then h else const_list_at t (n - 1)
  end.

(** [parse_cs<C, N>], 166-173, with [presult], 155-163, as a pair; [n] bounds the
    depth of the recursion.  Simplification: [incr] does not overflow. *)
Fixpoint parse_cs (n : nat) (c : char) (s : list char) (from : Z) : option (Z * Z) :=
  match n with
  | O => None
  | S n' =>
      if from <? Z.of_nat (length s) then
        if const_list_at s from =? c then
          match parse_cs n' c s (from + 1) with
          | Some (v, r) => Some (v + 1, r)
          | None => None
          end
        else Some (0, from)
      else Some (0, from)
  end.

(** [parse_impl], 175-190 *)
Definition parse_impl (n : nat) (s : list char) : option parsed :=
  match parse_cs n 97 s 0 with
  | None => None
  | Some (a1, r1) =>
      match parse_cs n 98 s r1 with
      | None => None
      | Some (b, r2) =>
          match parse_cs n 97 s r2 with
          | None => None
          | Some (a2, _) => Some (mkparsed a1 b a2)
          end
      end
  end.
(** [parse], 192-196: the array ends with a zero *)
Definition constexpr_parse (n : nat) (s : str) : option parsed := parse_impl n (s ++ [0]).

(** [count], 200-206 *)
Definition count : mf2 := fun state _ => mpl_plus (VInt 1) state.
(** [as] and [bs], 208-209 *)
Definition as_parser : pexpr := PFoldl (PLitC 97) (Some (VInt 0)) count.
Definition bs_parser : pexpr := PFoldl (PLitC 98) (Some (VInt 0)) count.
(** [s], 211, and [parser], 213, without [build_parser] *)
Definition tmp_parser : pexpr :=
  PEntireInput (PSequence [as_parser; bs_parser; as_parser]) end_of_input_expected.

(** [parse_with_constexpr<C>], 254-277.  The list made by [tmp_to_const_list],
    223-252, has no terminating zero. *)
Definition parse_with_constexpr (cfg : config) (n : nat) (c : char) : pfun := fun s ps =>
  match parse_cs n c s 0 with
  | Some (v, r) => last_of cfg [iterate_c n one_char r; return_ (VInt v)] s ps
  | None => OutOfFuel
  end.
(** [bs_mixed], 279, [s_mixed], 281, and [parser_mixed], 283, without
    [build_parser] *)
Definition mixed_parser (cfg : config) (n : nat) : pexpr :=
  PEntireInput
    (PSequence [as_parser; PNative (parse_with_constexpr cfg n 98); as_parser])
    end_of_input_expected.

(** ** example/regexp/main.cpp *)

(** [r_epsilon], [r_any_char], [r_char_lit::apply<C>] and [r_append::apply<A, B>]
    as class names, 55-95 *)
Definition r_epsilon : value := VTmpl 1 [].
Definition r_any_char : value := VTmpl 2 [].
Definition r_char_lit : mf1 := fun c => Some (VTmpl 3 [c]).
(** [r_append], 83-95: [apply<A, B>] is derived from [has_value<apply<B, A>>], so
    its nested [type] is [apply<B, A>].  The folds only use the [type] of the
    state they built, so this is the result of the operation. *)
Definition r_append : mf2 := fun a b => Some (VTmpl 4 [b; a]).

(** What a [boost::xpressive::sregex] of this program matches (not part of
    /repo): any character or one particular character, one after the other. *)
Inductive atom : Set := AnyChar | ThisChar (c : char).

(** [T::type::run()] for these classes, 55-95: [r_append::apply<A, B>::type] is
    [apply<B, A>], and [apply<B, A>::run()] appends [B::type::run()] and
    [A::type::run()]. *)
Fixpoint run_type (v : value) : option (list atom) :=
  match v with
  | VTmpl 1 [] => Some []
  | VTmpl 2 [] => Some [AnyChar]
  | VTmpl 3 [c] => match as_int c with Some k => Some [ThisChar k] | None => None end
  | VTmpl 4 [a; b] =>
      match run_type b, run_type a with
      | Some x, Some y => Some (x ++ y)
      | _, _ => None
      end
  | _ => None
  end.
(** [has_value<T>::value], 45-53, of the base class of [T] *)
Definition regex_value (v : value) : option (list atom) := run_type v.

(** [boost::xpressive::regex_match] (not part of /repo) *)
Definition atom_match (a : atom) (c : char) : bool :=
  match a with AnyChar => true | ThisChar d => c =? d end.
Fixpoint regex_match (s : str) (re : list atom) : bool :=
  match s, re with
  | [], [] => true
  | c :: s', a :: re' => atom_match a c && regex_match s' re'
  | _, _ => false
  end.

(** [non_bracket_expr], 104-113 *)
Definition non_bracket_expr : pexpr :=
  PFoldlRejectIncomplete1
    (POneOf [PAlways (PLitC 46) r_any_char;
             PTransform (POneCharExceptC [46; 40; 41]) r_char_lit])
    (Some r_epsilon) r_append.
(** [bracket_expr], 115 *)
Definition bracket_expr : pexpr := PMiddleOf (PLitC 40) non_bracket_expr (PLitC 41).
(** [regexp], 117-123 *)
Definition regexp : pexpr :=
  PFoldlRejectIncomplete (POneOf [bracket_expr; non_bracket_expr]) (Some r_epsilon) r_append.
(** [regexp_parser], 125, without [build_parser] *)
Definition regexp_parser : pexpr := PEntireInput regexp end_of_input_expected.

(** ** example/parsing_error/main.cpp *)

(** [s], 29; the program runs [debug_parsing_error] with [build_parser<s>], which
    is the same as running it with [s] (debug_parsing_error.hpp:84-89) *)
Definition parsing_error_grammar : pexpr := PSequence [PRepeated (PLitC 97); PLitC 98].
