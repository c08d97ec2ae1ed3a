(** What including headers of the library should do. *)

From Coq Require Import ZArith List Bool.
From Verif Require Import Include HeaderFiles.
Import ListNotations.
Open Scope Z_scope.

(** A name is known after something was said. *)
Definition declared (n : name) (l : list event) : Prop := In (Declares n) l \/ In (Defines n) l.
(** Every name is declared before it is used. *)
Definition uses_declared (l : list event) : Prop :=
  forall l1 n l2, l = l1 ++ Uses n :: l2 -> declared n l1.
(** The definitions *)
Definition definitions (l : list event) : list name :=
  flat_map (fun e => match e with Defines n => [n] | _ => [] end) l.
(** Everything but which files were read *)
Definition contents (l : list event) : list event :=
  filter (fun e => match e with Reads _ => false | _ => true end) l.

(** The macros a header defines *)
Fixpoint defines (c : code) : list macro :=
  match c with
  | Done => []
  | Do (Define m _) k => m :: defines k
  | Do _ k => defines k
  | If _ yes no k => defines yes ++ defines no ++ defines k
  end.
(** ... some of which the user may define before. *)
Definition settings : list macro :=
  [BOOST_METAPARSE_STD; BOOST_METAPARSE_LIMIT_STRING_SIZE; BOOST_METAPARSE_LIMIT_SEQUENCE_SIZE;
   BOOST_METAPARSE_LIMIT_ONE_OF_SIZE; BOOST_METAPARSE_LIMIT_ONE_CHAR_EXCEPT_SIZE].
(** What a translation unit may have defined before including headers of the
    library: none of the macros of the library but the settings, and a limit of
    the length of texts for which there are macros. *)
Definition untouched (ms : macros) : Prop :=
  (forall c m, In c headers -> In m (defines c) -> ~ In m settings -> ms m = None)
  /\ value_of ms BOOST_METAPARSE_LIMIT_STRING_SIZE <= 2048.

(** The C++ standard the library chooses. *)
Definition supports_cxx11 (ms : macros) : Prop :=
  ms BOOST_NO_CXX11_VARIADIC_TEMPLATES = None /\ ms BOOST_NO_VARIADIC_TEMPLATES = None
  /\ (ms BOOST_NO_CONSTEXPR = None /\ ms BOOST_NO_CXX11_CONSTEXPR = None \/ exists v, ms MSC_VER = Some v /\ 1900 <= v)
  /\ (forall v, ms BOOST_GCC = Some v -> 40700 <= v).
Definition standard (ms : macros) (s : Z) : Prop :=
  match ms BOOST_METAPARSE_STD with
  | Some v => s = v
  | None => (supports_cxx11 ms /\ ms BOOST_NO_CXX14_CONSTEXPR = None /\ s = 2014)
      \/ (supports_cxx11 ms /\ ms BOOST_NO_CXX14_CONSTEXPR <> None /\ s = 2011)
      \/ (~ supports_cxx11 ms /\ s = 1998)
  end.
(** The files for the standard; three files for C++11 are replaced by others for C++14. *)
Definition replaced : list file := [h_v1_cpp11_one_of_c; h_v1_cpp11_impl_any_of_c; h_v1_cpp11_impl_or_c].
Definition for_standard (s : Z) (f : file) : Prop :=
  (s < 2011 -> ~ In f headers_11 /\ ~ In f headers_14)
  /\ (2011 <= s < 2014 -> ~ In f headers_98 /\ ~ In f headers_14)
  /\ (2014 <= s -> ~ In f headers_98 /\ ~ In f replaced).
(** clang with string literal templates *)
Definition literal_templates (ms : macros) : Prop :=
  value_of ms clang__ <> 0 /\ value_of ms HAS_STRING_LITERAL_TEMPLATES <> 0.

(** Headers for everybody: those that are not for one standard only, and except for
    one that needs another one to be included before. *)
Definition general (f : file) : Prop :=
  (f < length headers)%nat /\ ~ In f headers_98 /\ ~ In f headers_11 /\ ~ In f headers_14
  /\ f <> h_v1_impl_assert_string_length.

(** The macros that stay defined after including headers, beside the include guards *)
Definition exported : list macro :=
  [BOOST_METAPARSE_DEFINE_ERROR; BOOST_METAPARSE_V1_DEFINE_ERROR; BOOST_METAPARSE_STRING;
   BOOST_METAPARSE_V1_STRING; BOOST_METAPARSE_STRING_VALUE; BOOST_METAPARSE_V1_STRING_VALUE;
   BOOST_METAPARSE_V1_CONFIG_NO_BOOST_METAPARSE_STRING; BOOST_METAPARSE_V1_STRING_AT;
   BOOST_METAPARSE_VERSION; BOOST_NO_CHAR; BOOST_METAPARSE_VARIADIC_STRING; BOOST_NO_CONSTEXPR_C_STR].
(** The include guard of a header *)
Fixpoint guard_of (c : code) : option macro :=
  match c with
  | Do (Include _) k => guard_of k
  | If (Not (Defined m)) _ _ _ => Some m
  | _ => None
  end.

(** The public headers: [(h, (hv, (n, nv)))], the header [h] is for boost::metaparse::n,
    the header [hv] for boost::metaparse::v1::n. *)
Definition public : list (file * (file * (name * name))) :=
  [(h_accept, (h_v1_accept, (n_accept, n_v1_accept)));
   (h_accept_tag, (h_v1_accept_tag, (n_accept_tag, n_v1_accept_tag)));
   (h_accept_when, (h_v1_accept_when, (n_accept_when, n_v1_accept_when)));
   (h_alphanum, (h_v1_alphanum, (n_alphanum, n_v1_alphanum)));
   (h_always, (h_v1_always, (n_always, n_v1_always)));
   (h_always_c, (h_v1_always_c, (n_always_c, n_v1_always_c)));
   (h_build_parser, (h_v1_build_parser, (n_build_parser, n_v1_build_parser)));
   (h_change_error_message, (h_v1_change_error_message, (n_change_error_message, n_v1_change_error_message)));
   (h_debug_parsing_error, (h_v1_debug_parsing_error, (n_debug_parsing_error, n_v1_debug_parsing_error)));
   (h_digit, (h_v1_digit, (n_digit, n_v1_digit)));
   (h_digit_val, (h_v1_digit_val, (n_digit_val, n_v1_digit_val)));
   (h_empty, (h_v1_empty, (n_empty, n_v1_empty)));
   (h_entire_input, (h_v1_entire_input, (n_entire_input, n_v1_entire_input)));
   (h_error_digit_expected, (h_v1_error_digit_expected, (n_error_digit_expected, n_v1_error_digit_expected)));
   (h_error_end_of_input_expected, (h_v1_error_end_of_input_expected, (n_error_end_of_input_expected, n_v1_error_end_of_input_expected)));
   (h_error_index_out_of_range, (h_v1_error_index_out_of_range, (n_error_index_out_of_range, n_v1_error_index_out_of_range)));
   (h_error_letter_expected, (h_v1_error_letter_expected, (n_error_letter_expected, n_v1_error_letter_expected)));
   (h_error_literal_expected, (h_v1_error_literal_expected, (n_error_literal_expected, n_v1_error_literal_expected)));
   (h_error_none_of_the_expected_cases_found, (h_v1_error_none_of_the_expected_cases_found, (n_error_none_of_the_expected_cases_found, n_v1_error_none_of_the_expected_cases_found)));
   (h_error_unexpected_character, (h_v1_error_unexpected_character, (n_error_unexpected_character, n_v1_error_unexpected_character)));
   (h_error_unexpected_end_of_input, (h_v1_error_unexpected_end_of_input, (n_error_unexpected_end_of_input, n_v1_error_unexpected_end_of_input)));
   (h_error_unpaired, (h_v1_error_unpaired, (n_error_unpaired, n_v1_error_unpaired)));
   (h_error_whitespace_expected, (h_v1_error_whitespace_expected, (n_error_whitespace_expected, n_v1_error_whitespace_expected)));
   (h_except, (h_v1_except, (n_except, n_v1_except)));
   (h_fail, (h_v1_fail, (n_fail, n_v1_fail)));
   (h_fail_at_first_char_expected, (h_v1_fail_at_first_char_expected, (n_fail_at_first_char_expected, n_v1_fail_at_first_char_expected)));
   (h_fail_tag, (h_v1_fail_tag, (n_fail_tag, n_v1_fail_tag)));
   (h_first_of, (h_v1_first_of, (n_first_of, n_v1_first_of)));
   (h_foldl, (h_v1_foldl, (n_foldl, n_v1_foldl)));
   (h_foldl1, (h_v1_foldl1, (n_foldl1, n_v1_foldl1)));
   (h_foldl_reject_incomplete, (h_v1_foldl_reject_incomplete, (n_foldl_reject_incomplete, n_v1_foldl_reject_incomplete)));
   (h_foldl_reject_incomplete1, (h_v1_foldl_reject_incomplete1, (n_foldl_reject_incomplete1, n_v1_foldl_reject_incomplete1)));
   (h_foldl_reject_incomplete_start_with_parser, (h_v1_foldl_reject_incomplete_start_with_parser, (n_foldl_reject_incomplete_start_with_parser, n_v1_foldl_reject_incomplete_start_with_parser)));
   (h_foldl_start_with_parser, (h_v1_foldl_start_with_parser, (n_foldl_start_with_parser, n_v1_foldl_start_with_parser)));
   (h_foldr, (h_v1_foldr, (n_foldr, n_v1_foldr)));
   (h_foldr1, (h_v1_foldr1, (n_foldr1, n_v1_foldr1)));
   (h_foldr_reject_incomplete, (h_v1_foldr_reject_incomplete, (n_foldr_reject_incomplete, n_v1_foldr_reject_incomplete)));
   (h_foldr_reject_incomplete1, (h_v1_foldr_reject_incomplete1, (n_foldr_reject_incomplete1, n_v1_foldr_reject_incomplete1)));
   (h_foldr_start_with_parser, (h_v1_foldr_start_with_parser, (n_foldr_start_with_parser, n_v1_foldr_start_with_parser)));
   (h_get_col, (h_v1_get_col, (n_get_col, n_v1_get_col)));
   (h_get_line, (h_v1_get_line, (n_get_line, n_v1_get_line)));
   (h_get_message, (h_v1_get_message, (n_get_message, n_v1_get_message)));
   (h_get_position, (h_v1_get_position, (n_get_position, n_v1_get_position)));
   (h_get_prev_char, (h_v1_get_prev_char, (n_get_prev_char, n_v1_get_prev_char)));
   (h_get_remaining, (h_v1_get_remaining, (n_get_remaining, n_v1_get_remaining)));
   (h_get_result, (h_v1_get_result, (n_get_result, n_v1_get_result)));
   (h_grammar, (h_v1_grammar, (n_grammar, n_v1_grammar)));
   (h_if_, (h_v1_if_, (n_if_, n_v1_if_)));
   (h_int_, (h_v1_int_, (n_int_, n_v1_int_)));
   (h_is_error, (h_v1_is_error, (n_is_error, n_v1_is_error)));
   (h_iterate, (h_v1_iterate, (n_iterate, n_v1_iterate)));
   (h_iterate_c, (h_v1_iterate_c, (n_iterate_c, n_v1_iterate_c)));
   (h_keyword, (h_v1_keyword, (n_keyword, n_v1_keyword)));
   (h_last_of, (h_v1_last_of, (n_last_of, n_v1_last_of)));
   (h_letter, (h_v1_letter, (n_letter, n_v1_letter)));
   (h_lit, (h_v1_lit, (n_lit, n_v1_lit)));
   (h_lit_c, (h_v1_lit_c, (n_lit_c, n_v1_lit_c)));
   (h_look_ahead, (h_v1_look_ahead, (n_look_ahead, n_v1_look_ahead)));
   (h_middle_of, (h_v1_middle_of, (n_middle_of, n_v1_middle_of)));
   (h_next_char, (h_v1_next_char, (n_next_char, n_v1_next_char)));
   (h_next_line, (h_v1_next_line, (n_next_line, n_v1_next_line)));
   (h_nth_of, (h_v1_nth_of, (n_nth_of, n_v1_nth_of)));
   (h_nth_of_c, (h_v1_nth_of_c, (n_nth_of_c, n_v1_nth_of_c)));
   (h_one_char, (h_v1_one_char, (n_one_char, n_v1_one_char)));
   (h_one_char_except, (h_v1_one_char_except, (n_one_char_except, n_v1_one_char_except)));
   (h_one_char_except_c, (h_v1_one_char_except_c, (n_one_char_except_c, n_v1_one_char_except_c)));
   (h_one_of, (h_v1_one_of, (n_one_of, n_v1_one_of)));
   (h_one_of_c, (h_v1_one_of_c, (n_one_of_c, n_v1_one_of_c)));
   (h_optional, (h_v1_optional, (n_optional, n_v1_optional)));
   (h_range, (h_v1_range, (n_range, n_v1_range)));
   (h_range_c, (h_v1_range_c, (n_range_c, n_v1_range_c)));
   (h_reject, (h_v1_reject, (n_reject, n_v1_reject)));
   (h_repeated, (h_v1_repeated, (n_repeated, n_v1_repeated)));
   (h_repeated1, (h_v1_repeated1, (n_repeated1, n_v1_repeated1)));
   (h_repeated_one_of, (h_v1_repeated_one_of, (n_repeated_one_of, n_v1_repeated_one_of)));
   (h_repeated_one_of1, (h_v1_repeated_one_of1, (n_repeated_one_of1, n_v1_repeated_one_of1)));
   (h_repeated_reject_incomplete, (h_v1_repeated_reject_incomplete, (n_repeated_reject_incomplete, n_v1_repeated_reject_incomplete)));
   (h_repeated_reject_incomplete1, (h_v1_repeated_reject_incomplete1, (n_repeated_reject_incomplete1, n_v1_repeated_reject_incomplete1)));
   (h_return_, (h_v1_return_, (n_return_, n_v1_return_)));
   (h_sequence, (h_v1_sequence, (n_sequence, n_v1_sequence)));
   (h_source_position, (h_v1_source_position, (n_source_position, n_v1_source_position)));
   (h_source_position_tag, (h_v1_source_position_tag, (n_source_position_tag, n_v1_source_position_tag)));
   (h_space, (h_v1_space, (n_space, n_v1_space)));
   (h_spaces, (h_v1_spaces, (n_spaces, n_v1_spaces)));
   (h_start, (h_v1_start, (n_start, n_v1_start)));
   (h_string, (h_v1_string, (n_string, n_v1_string)));
   (h_string_tag, (h_v1_string_tag, (n_string_tag, n_v1_string_tag)));
   (h_token, (h_v1_token, (n_token, n_v1_token)));
   (h_transform, (h_v1_transform, (n_transform, n_v1_transform)));
   (h_transform_error, (h_v1_transform_error, (n_transform_error, n_v1_transform_error)));
   (h_transform_error_message, (h_v1_transform_error_message, (n_transform_error_message, n_v1_transform_error_message)));
   (h_unless_error, (h_v1_unless_error, (n_unless_error, n_v1_unless_error)));
   (h_util_digit_to_int, (h_v1_util_digit_to_int, (n_util_digit_to_int, n_v1_util_digit_to_int)));
   (h_util_digit_to_int_c, (h_v1_util_digit_to_int_c, (n_util_digit_to_int_c, n_v1_util_digit_to_int_c)));
   (h_util_in_range, (h_v1_util_in_range, (n_util_in_range, n_v1_util_in_range)));
   (h_util_in_range_c, (h_v1_util_in_range_c, (n_util_in_range_c, n_v1_util_in_range_c)));
   (h_util_int_to_digit, (h_v1_util_int_to_digit, (n_util_int_to_digit, n_v1_util_int_to_digit)));
   (h_util_int_to_digit_c, (h_v1_util_int_to_digit_c, (n_util_int_to_digit_c, n_v1_util_int_to_digit_c)));
   (h_util_is_digit, (h_v1_util_is_digit, (n_util_is_digit, n_v1_util_is_digit)));
   (h_util_is_lcase_letter, (h_v1_util_is_lcase_letter, (n_util_is_lcase_letter, n_v1_util_is_lcase_letter)));
   (h_util_is_letter, (h_v1_util_is_letter, (n_util_is_letter, n_v1_util_is_letter)));
   (h_util_is_ucase_letter, (h_v1_util_is_ucase_letter, (n_util_is_ucase_letter, n_v1_util_is_ucase_letter)));
   (h_util_is_whitespace, (h_v1_util_is_whitespace, (n_util_is_whitespace, n_v1_util_is_whitespace)));
   (h_util_is_whitespace_c, (h_v1_util_is_whitespace_c, (n_util_is_whitespace_c, n_v1_util_is_whitespace_c)))].
