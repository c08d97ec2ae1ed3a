(** Characters, source positions, error messages, metaprogramming values and
    parsing results of boost::metaparse::v1.

    All paths in the citations of this development are relative to
    /repo/include/boost/metaparse/v1 unless they start with "/repo". *)

From Coq Require Import ZArith List Bool.
Import ListNotations.
Open Scope Z_scope.

(** A C++ [char] value.  Simplification: any integer, so the model covers
    signed and unsigned [char]. *)
Definition char := Z.

(** The parsed text.  The parsers only look at it with [mpl::empty],
    [mpl::front] and [mpl::pop_front] (one_char.hpp:46-64, empty.hpp:28-35), so
    it is a list of characters. *)
Definition str := list char.

(** '\n' and '\r' *)
Definition c_lf : char := 10.
Definition c_cr : char := 13.

(** [source_position<Line, Col, PrevChar>], source_position.hpp:23-32.
    Simplification: the counters are unbounded integers. *)
Record pos : Set := mkpos { line : Z; col : Z; prev : char }.

(** [start], start.hpp:20-26. *)
Definition start : pos := mkpos 1 1 0.

(** [next_char_impl<source_position_tag>], source_position_tag.hpp:50-61. *)
Definition next_char (p : pos) (c : char) : pos :=
  mkpos (line p) (col p + 1) c.

(** [next_line_impl<source_position_tag>], source_position_tag.hpp:63-74. *)
Definition next_line (p : pos) (c : char) : pos :=
  mkpos (line p + 1) 1 c.

(** [equal_to_impl], source_position.hpp:44-60. *)
Definition pos_equal_to (a b : pos) : bool :=
  (line a =? line b) && (col a =? col b) && (prev a =? prev b).

(** [not_equal_to_impl], source_position.hpp:65-75. *)
Definition pos_not_equal_to (a b : pos) : bool := negb (pos_equal_to a b).

(** [less_impl], source_position.hpp:80-101. *)
Definition pos_less (a b : pos) : bool :=
  (line a <? line b)
  || ((line a =? line b)
      && ((col a <? col b)
          || ((col a =? col b) && (prev a <? prev b)))).

(** [greater_impl], source_position.hpp:106-118. *)
Definition pos_greater (a b : pos) : bool :=
  negb (pos_less a b || pos_equal_to a b).

(** [greater_equal_impl], source_position.hpp:123-133. *)
Definition pos_greater_equal (a b : pos) : bool := negb (pos_less a b).

(** [less_equal_impl], source_position.hpp:138-150. *)
Definition pos_less_equal (a b : pos) : bool :=
  pos_less a b || pos_equal_to a b.

(** The error message classes of error/*.hpp.  [UserMsg] stands for any other
    class given to the library as an error message. *)
Inductive msg : Set :=
| digit_expected                       (* error/digit_expected.hpp:18 *)
| end_of_input_expected                (* error/end_of_input_expected.hpp:18 *)
| expected_to_fail                     (* error/expected_to_fail.hpp:18 *)
| index_out_of_range (from to n : Z)   (* error/index_out_of_range.hpp:21-34 *)
| letter_expected                      (* error/letter_expected.hpp:18 *)
| literal_expected (c : char)          (* error/literal_expected.hpp:19-28 *)
| none_of_the_expected_cases_found     (* error/none_of_the_expected_cases_found.hpp:18 *)
| unexpected_character                 (* error/unexpected_character.hpp:18 *)
| unexpected_end_of_input              (* error/unexpected_end_of_input.hpp:18 *)
| unpaired (l c : Z) (m : msg)         (* error/unpaired.hpp:23-34 *)
| whitespace_expected                  (* error/whitespace_expected.hpp:18 *)
| UserMsg (n : nat).

(** The metafunction classes the rule parser of grammar.hpp returns
    (grammar.hpp:59-185): [lit<C>], a name, [repeated], [repeated1],
    [sequence] and [one_of] of such. *)
Inductive gexpr : Set :=
| GChar (c : char)        (* build_char::apply_impl<C>, grammar.hpp:170-185 *)
| GName (s : str)         (* build_name::apply_impl<Name>, grammar.hpp:153-168 *)
| GStar (e : gexpr)       (* repeated_apply_impl<Op, FState>, grammar.hpp:59-68 *)
| GPlus (e : gexpr)       (* repeated_apply_impl<'+', FState>, grammar.hpp:70-79 *)
| GSeq (a b : gexpr)      (* build_sequence::apply_impl, grammar.hpp:93-105 *)
| GSel (a b : gexpr).     (* build_selection::apply_impl, grammar.hpp:115-127 *)

(** Metaprogramming values.  [VTmpl k args] stands for an instance of any
    other class template (number [k]) of the user. *)
Inductive value : Set :=
| VChar (c : char)                  (* boost::mpl::char_<c> *)
| VInt (n : Z)                      (* boost::mpl::int_<n> *)
| VBool (b : bool)                  (* boost::mpl::bool_<b> *)
| VVoid                             (* void, the default result of optional and empty *)
| VVoid_                            (* impl::void_, impl/void_.hpp *)
| VStr (s : str)                    (* metaparse::string<...> *)
| VSeq (l : list value)             (* mpl sequences: vector, deque, list *)
| VErr (m : msg)                    (* an error class used as a value *)
| VGram (e : gexpr)                 (* the result of parsing a grammar expression *)
| VTmpl (k : nat) (args : list value).

(** [x::type::value] for the integral constant wrappers. *)
Definition as_int (v : value) : option Z :=
  match v with
  | VChar c => Some c
  | VInt n => Some n
  | VBool b => Some (if b then 1 else 0)
  | _ => None
  end.

(** [x::type]; every value has it but [void]. *)
Definition type_of (v : value) : option value :=
  match v with VVoid => None | _ => Some v end.
Lemma type_of_some : forall v, v <> VVoid -> type_of v = Some v.
Proof. destruct v; auto; congruence. Qed.
Lemma type_of_cases : forall v, v = VVoid \/ v <> VVoid /\ type_of v = Some v.
Proof. destruct v; auto; right; split; auto; discriminate. Qed.

(** Metafunction classes of one and two arguments; [None]: the application has
    no [type] (the program is ill-formed). *)
Definition mf1 := value -> option value.
Definition mf2 := value -> value -> option value.
(** Predicates (their result is used as an [mpl::eval_if] condition). *)
Definition pred1 := value -> option bool.
(** Functions on error messages. *)
Definition mfmsg := msg -> option msg.

(** The result of applying a parser to a text and a position.
    - [Accept], accept.hpp:18-30;
    - [Reject], reject.hpp:18-27;
    - [Illformed]: the instantiation is a hard compilation error;
    - [OutOfFuel]: the instantiation is deeper than the given bound. *)
Inductive outcome : Set :=
| Accept (r : value) (rem : str) (p : pos)
| Reject (m : msg) (p : pos)
| Illformed
| OutOfFuel.

(** A parser: a metafunction class of two arguments, the text and the source
    position. *)
Definition pfun := str -> pos -> outcome.

(** [is_error], is_error.hpp:22-28; [None] when the result can not be
    instantiated. *)
Definition is_error (o : outcome) : option bool :=
  match o with
  | Accept _ _ _ => Some false
  | Reject _ _ => Some true
  | Illformed => None
  | OutOfFuel => None
  end.

(** [get_result], [get_remaining], [get_position], [get_message]
    (accept_tag.hpp:20-41, fail_tag.hpp:21-35): undefined for the other tag. *)
Definition get_result (o : outcome) : option value :=
  match o with Accept r _ _ => Some r | _ => None end.
Definition get_remaining (o : outcome) : option str :=
  match o with Accept _ s _ => Some s | _ => None end.
Definition get_position (o : outcome) : option pos :=
  match o with Accept _ _ p => Some p | Reject _ p => Some p | _ => None end.
Definition get_message (o : outcome) : option msg :=
  match o with Reject m _ => Some m | _ => None end.

(** Which of the preprocessor-selected implementations is used
    (e.g. one_of.hpp:11-15, one_of_c.hpp:11-17). *)
Inductive std : Set := Std98 | Std11 | Std14.

(** The build configuration: language standard and the limits used by the
    C++98 implementation (/repo/include/boost/metaparse/limit_*.hpp). *)
Record config : Set := mkconfig {
  cfg_std : std;
  limit_sequence : nat;         (* BOOST_METAPARSE_LIMIT_SEQUENCE_SIZE *)
  limit_one_of : nat;           (* BOOST_METAPARSE_LIMIT_ONE_OF_SIZE *)
  limit_one_char_except : nat   (* BOOST_METAPARSE_LIMIT_ONE_CHAR_EXCEPT_SIZE *)
}.

(** The default limits (limit_sequence_size.hpp:10, limit_one_of_size.hpp:10,
    limit_one_char_except_size.hpp:10). *)
Definition default_config (d : std) : config := mkconfig d 5 20 10.
