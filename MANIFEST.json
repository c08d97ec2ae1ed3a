{
 "claims": [
  {
   "property": "C01",
   "status": "proved",
   "theorems": [
    "C01_remaining_is_suffix"
   ],
   "note": "User-written parsers inside the expression are assumed to satisfy the same invariant (hypothesis good_user_code / every native good)."
  },
  {
   "property": "C02",
   "status": "proved",
   "theorems": [
    "C02_position_follows_consumed_text"
   ],
   "note": ""
  },
  {
   "property": "C03",
   "status": "proved",
   "theorems": [
    "C03_error_position_is_inside_the_text",
    "C03_error_position_bounds"
   ],
   "note": ""
  },
  {
   "property": "C04",
   "status": "proved",
   "theorems": [
    "C04_positions_increase",
    "C04_positions_ordered_by_consumption",
    "C04_error_at_start_means_no_progress"
   ],
   "note": ""
  },
  {
   "property": "C05",
   "status": "proved",
   "theorems": [
    "C05_line_counts_terminators",
    "C05_error_line_counts_terminators"
   ],
   "note": ""
  },
  {
   "property": "C06",
   "status": "proved",
   "theorems": [
    "C06_column_refuted",
    "C06_column_exact",
    "C06_error_column_exact"
   ],
   "note": "The English claim is false after CR LF: C06_column_refuted gives a witness, C06_column_exact and C06_error_column_exact give the exact column for all texts."
  },
  {
   "property": "C07",
   "status": "proved",
   "theorems": [
    "C07_position_comparisons"
   ],
   "note": ""
  },
  {
   "property": "C08",
   "status": "proved",
   "theorems": [
    "C08_foldl_accepts",
    "C08_foldl_never_rejects",
    "C08_foldl_illformed"
   ],
   "note": ""
  },
  {
   "property": "C09",
   "status": "proved",
   "theorems": [
    "C09_foldr_accepts",
    "C09_foldr_never_rejects",
    "C09_foldr_illformed",
    "C09_foldr_front_inserter_is_repeated"
   ],
   "note": ""
  },
  {
   "property": "C10",
   "status": "proved",
   "theorems": [
    "C10_foldl_start_with_parser_accepts",
    "C10_foldl_start_with_parser_rejects",
    "C10_foldr_start_with_parser_accepts",
    "C10_foldr_start_with_parser_rejects",
    "C10_foldl_reject_incomplete_start_with_parser_accepts",
    "C10_foldl_reject_incomplete_start_with_parser_rejects",
    "C10_void_state",
    "C10_void_refuted"
   ],
   "note": ""
  },
  {
   "property": "C11",
   "status": "proved",
   "theorems": [
    "C11_variants_with_one",
    "C11_foldl1_accepts",
    "C11_foldl1_rejects",
    "C11_foldr1_accepts",
    "C11_foldr1_rejects"
   ],
   "note": ""
  },
  {
   "property": "C12",
   "status": "proved",
   "theorems": [
    "C12_foldl_reject_incomplete_accepts",
    "C12_foldl_reject_incomplete_rejects",
    "C12_foldl_reject_incomplete_illformed",
    "C12_foldr_reject_incomplete_accepts",
    "C12_foldr_reject_incomplete_rejects",
    "C12_repeated_reject_incomplete_accepts",
    "C12_repeated_reject_incomplete_rejects"
   ],
   "note": ""
  },
  {
   "property": "C13",
   "status": "proved",
   "theorems": [
    "C13_repeated_accepts",
    "C13_repeated1_accepts",
    "C13_repeated_illformed"
   ],
   "note": ""
  },
  {
   "property": "C14",
   "status": "proved",
   "theorems": [
    "C14_other_folds_terminate",
    "C14_other_folds_diverge",
    "C14_repetition_terminates",
    "C14_repetition_diverges"
   ],
   "note": ""
  },
  {
   "property": "C15",
   "status": "proved",
   "theorems": [
    "C15_sequence_accepts",
    "C15_sequence_fails_as_its_first_failure",
    "C15_implementations_agree",
    "C15_empty_sequence"
   ],
   "note": ""
  },
  {
   "property": "C16",
   "status": "proved",
   "theorems": [
    "C16_nth_of_accepts",
    "C16_nth_of_fails_as_its_first_failure",
    "C16_nth_of_out_of_range",
    "C16_first_of_accepts",
    "C16_last_of_accepts",
    "C16_first_and_last_of_are_nth_of",
    "C16_implementations_agree",
    "C16_last_of_nothing"
   ],
   "note": ""
  },
  {
   "property": "C17",
   "status": "proved",
   "theorems": [
    "C17_one_of_accepts",
    "C17_one_of_rejects",
    "C17_one_of_error_position",
    "C17_implementations_agree"
   ],
   "note": ""
  },
  {
   "property": "C18",
   "status": "proved",
   "theorems": [
    "C18_cpp98_message",
    "C18_cpp11_message",
    "C18_same_message_refuted",
    "C18_fail_ignored",
    "C18_fail_message"
   ],
   "note": "The two implementations report different messages if no alternative makes progress: C18_same_message_refuted; exact message for each implementation proved. The tutorial's custom message never appears in C++11 and later (C18_fail_ignored)."
  },
  {
   "property": "C19",
   "status": "proved",
   "theorems": [
    "C19_one_of_instantiates_every_alternative",
    "C19_short_circuit_refuted"
   ],
   "note": "C19_short_circuit_refuted refutes the short-circuit reading of the reference."
  },
  {
   "property": "C20",
   "status": "proved",
   "theorems": [
    "C20_always",
    "C20_optional",
    "C20_empty",
    "C20_foldl1",
    "C20_foldr1",
    "C20_repeated1",
    "C20_foldl_reject_incomplete",
    "C20_foldl_reject_incomplete1",
    "C20_foldl_reject_incomplete_start_with_parser",
    "C20_repeated_reject_incomplete",
    "C20_repeated_reject_incomplete1",
    "C20_foldr_reject_incomplete",
    "C20_foldr_reject_incomplete1",
    "C20_partial_operation_refuted",
    "C20_reject_incomplete_defined",
    "C20_reject_incomplete_undefined",
    "C20_keyword",
    "C20_entire_input",
    "C20_iterate_c",
    "C20_first_of",
    "C20_nth_of_c"
   ],
   "note": "Each equivalence is an equality of outcomes for all arguments and inputs; side conditions are the C++98 arity limits and, for reject_incomplete folds, total operations (C20_partial_operation_refuted shows the need)."
  },
  {
   "property": "C21",
   "status": "proved",
   "theorems": [
    "C21_if_refuted",
    "C21_if_exact",
    "C21_one_of_c_refuted",
    "C21_one_of_c_exact",
    "C21_middle_of_refuted",
    "C21_middle_of_exact",
    "C21_token_refuted",
    "C21_token_exact",
    "C21_accept_when_refuted",
    "C21_accept_when_exact",
    "C21_lit_refuted",
    "C21_lit_exact",
    "C21_digit_refuted",
    "C21_digit_exact",
    "C21_alphanum_refuted",
    "C21_alphanum_exact",
    "C21_last_of_refuted",
    "C21_last_of_exact",
    "C21_int_refuted",
    "C21_int_exact",
    "C21_repeated_refuted",
    "C21_sequence_apply_refuted",
    "C21_sequence_apply_exact"
   ],
   "note": "Each documented equivalence is refuted with a witness; the exact relation is proved beside it."
  },
  {
   "property": "C22",
   "status": "proved",
   "theorems": [
    "C22_look_ahead",
    "C22_except",
    "C22_if",
    "C22_optional",
    "C22_fail_at_first_char_expected",
    "C22_empty",
    "C22_return_and_fail"
   ],
   "note": ""
  },
  {
   "property": "C23",
   "status": "proved",
   "theorems": [
    "C23_entire_input_accepts",
    "C23_entire_input_rejects"
   ],
   "note": ""
  },
  {
   "property": "C24",
   "status": "proved",
   "theorems": [
    "C24_keyword_accepts",
    "C24_keyword_rejects",
    "C24_keyword_finishes"
   ],
   "note": ""
  },
  {
   "property": "C25",
   "status": "proved",
   "theorems": [
    "C25_one_char",
    "C25_lit",
    "C25_range",
    "C25_digit",
    "C25_letter",
    "C25_space",
    "C25_one_of_c",
    "C25_one_char_except_c",
    "C25_alphanum",
    "C25_accepts_exactly"
   ],
   "note": ""
  },
  {
   "property": "C26",
   "status": "proved",
   "theorems": [
    "C26_int_accepts",
    "C26_int_rejects",
    "C26_int_overflow",
    "C26_int_round_trip"
   ],
   "note": ""
  },
  {
   "property": "C27",
   "status": "proved",
   "theorems": [
    "C27_mutually_inverse",
    "C27_int_to_digit_domain",
    "C27_digit_to_int_domain",
    "C27_values",
    "C27_integral_constants",
    "C27_other_values"
   ],
   "note": ""
  },
  {
   "property": "C28",
   "status": "proved",
   "theorems": [
    "C28_token_accepts",
    "C28_token_rejects",
    "C28_spaces_accepts",
    "C28_spaces_rejects"
   ],
   "note": ""
  },
  {
   "property": "C29",
   "status": "proved",
   "theorems": [
    "C29_middle_of_accepts",
    "C29_middle_of_rejects"
   ],
   "note": ""
  },
  {
   "property": "C30",
   "status": "proved",
   "theorems": [
    "C30_transform",
    "C30_transform_identity",
    "C30_transform_compose",
    "C30_transform_error_message",
    "C30_transform_error",
    "C30_change_error_message",
    "C30_sequence_apply",
    "C30_transform_error_rejects",
    "C30_transform_error_message_illformed"
   ],
   "note": ""
  },
  {
   "property": "C31",
   "status": "proved",
   "theorems": [
    "C31_iterate_accepts",
    "C31_iterate_rejects",
    "C31_iterate_negative"
   ],
   "note": ""
  },
  {
   "property": "C32",
   "status": "proved",
   "theorems": [
    "C32_build_parser"
   ],
   "note": ""
  },
  {
   "property": "C33",
   "status": "proved",
   "theorems": [
    "C33_access",
    "C33_push_pop",
    "C33_pop_exact",
    "C33_equal_concat_c_str",
    "C33_iteration",
    "C33_iterators",
    "C33_parser_view"
   ],
   "note": ""
  },
  {
   "property": "C34",
   "status": "proved",
   "theorems": [
    "C34_preserved",
    "C34_rejected",
    "C34_never_changed",
    "C34_rounded_up_refuted"
   ],
   "note": "Limits other than the shipped ones are covered by C34_never_changed and C42_generated_headers."
  },
  {
   "property": "C35",
   "status": "proved",
   "theorems": [
    "C35_size_at",
    "C35_equal",
    "C35_iteration",
    "C35_updates",
    "C35_parser_view",
    "C35_full_length",
    "C35_full_length_refuted",
    "C35_eof_refuted",
    "C35_out_of_range"
   ],
   "note": "Proved below the limit; C35_full_length_refuted and C35_eof_refuted are the boundary defects, C35_full_length and C35_out_of_range the exact behaviour there."
  },
  {
   "property": "C36",
   "status": "proved",
   "theorems": [
    "C36_larger_bound_same_outcome",
    "C36_outcome_unique"
   ],
   "note": ""
  },
  {
   "property": "C37",
   "status": "proved",
   "theorems": [
    "C37_standards_agree",
    "C37_messages",
    "C37_same_messages",
    "C37_variadic_same",
    "C37_messages_refuted"
   ],
   "note": ""
  },
  {
   "property": "C38",
   "status": "proved",
   "theorems": [
    "C38_start_position_irrelevant",
    "C38_messages_moved",
    "C38_messages_moved_refuted"
   ],
   "note": ""
  },
  {
   "property": "C39",
   "status": "proved",
   "theorems": [
    "C39_rule_parser_exact",
    "C39_other_texts_rejected",
    "C39_rule_parser_gives_a_verdict",
    "C39_default_limits_suffice",
    "C39_unambiguous",
    "C39_print_and_parse",
    "C39_leading_name"
   ],
   "note": ""
  },
  {
   "property": "C40",
   "status": "proved",
   "theorems": [
    "C40_accept_is_match",
    "C40_reject_is_no_match",
    "C40_one_verdict",
    "C40_same_as_parsing_expression",
    "C40_terminates",
    "C40_verdict",
    "C40_rule_defines",
    "C40_starts_with",
    "C40_default_start",
    "C40_import_defines"
   ],
   "note": ""
  },
  {
   "property": "C41",
   "status": "proved",
   "theorems": [
    "C41_recursive_or_undefined_never",
    "C41_recursive_never_ends",
    "C41_undefined_illformed",
    "C41_no_start_name_illformed",
    "C41_acyclic_instantiates"
   ],
   "note": ""
  },
  {
   "property": "C42",
   "status": "proved",
   "theorems": [
    "C42_limits",
    "C42_generated_headers",
    "C42_reached",
    "C42_reached_refuted"
   ],
   "note": "C42_reached is the exact condition, C42_reached_refuted a witness against the unrestricted claim."
  },
  {
   "property": "C43",
   "status": "proved",
   "theorems": [
    "C43_maximum_arity_refuted",
    "C43_over_the_limit",
    "C43_default_limits"
   ],
   "note": "Refuted at exactly the limit; one below is supported."
  },
  {
   "property": "C44",
   "status": "proved",
   "theorems": [
    "C44_numbers_are_decimal",
    "C44_text_identifies_error",
    "C44_unpaired_text"
   ],
   "note": ""
  },
  {
   "property": "C45",
   "status": "proved",
   "theorems": [
    "C45_report_identifies_outcome",
    "C45_report_exists",
    "C45_nul_refuted"
   ],
   "note": ""
  },
  {
   "property": "C46",
   "status": "proved",
   "theorems": [
    "C46_well_founded_terminates",
    "C46_not_nullable_reads",
    "C46_left_recursion_never",
    "C46_loop_without_reading_never"
   ],
   "note": ""
  },
  {
   "property": "C47",
   "status": "proved",
   "theorems": [
    "C47_well_typed_never_illformed",
    "C47_results_have_the_type",
    "C47_verdict"
   ],
   "note": ""
  },
  {
   "property": "C48",
   "status": "proved",
   "theorems": [
    "C48_calculator",
    "C48_calculator_with_parens",
    "C48_calculator_with_unary_ops",
    "C48_default_limits_suffice",
    "C48_print_and_calculate",
    "C48_texts_have_one_value"
   ],
   "note": ""
  },
  {
   "property": "C49",
   "status": "proved",
   "theorems": [
    "C49_final_parser",
    "C49_complete_additions",
    "C49_two_ways",
    "C49_two_ways_refuted",
    "C49_alternative",
    "C49_longest_expression",
    "C49_nested_brackets_rejected",
    "C49_nested_brackets_refuted",
    "C49_early_parsers_refuted",
    "C49_documented_errors_refuted",
    "C49_two_numbers",
    "C49_list_of_numbers",
    "C49_sums",
    "C49_each_parser",
    "C49_readings_unambiguous"
   ],
   "note": "The parenthesis claim for exp_parser19 is refuted (C49_nested_brackets_refuted); the parsers the tutorial itself calls wrong are refuted too; two printed error messages are those of C++98 only (C49_documented_errors_refuted); the others are characterised."
  },
  {
   "property": "C50",
   "status": "proved",
   "theorems": [
    "C50_rational",
    "C50_minimal_rational",
    "C50_rational_errors",
    "C50_minimal_rational_errors",
    "C50_default_limits_suffice"
   ],
   "note": ""
  },
  {
   "property": "C51",
   "status": "proved",
   "theorems": [
    "C51_binary_number",
    "C51_every_number",
    "C51_documented_grammar_refuted"
   ],
   "note": "The grammar in the comment of the example is refuted (empty text)."
  },
  {
   "property": "C52",
   "status": "proved",
   "theorems": [
    "C52_template_parser",
    "C52_longest_beginning",
    "C52_mixed_parser",
    "C52_constexpr_parser",
    "C52_parsers_agree",
    "C52_constexpr_rejects_refuted"
   ],
   "note": "That the constexpr parser rejects texts outside the language is refuted; its exact result is proved."
  },
  {
   "property": "C53",
   "status": "proved",
   "theorems": [
    "C53_regexp",
    "C53_one_meaning",
    "C53_documented_grammar_refuted",
    "C53_language_is_documented"
   ],
   "note": "The grammar in the comment of the example is refuted (nested and empty groups); the exact language is proved. boost::xpressive itself is described by a matching function for sequences of single characters."
  },
  {
   "property": "C54",
   "status": "proved",
   "theorems": [
    "C54_parsing_error",
    "C54_outcome"
   ],
   "note": ""
  },
  {
   "property": "C55",
   "status": "proved",
   "theorems": [
    "C55_unambiguous",
    "C55_meta_lambda",
    "C55_verdict"
   ],
   "note": ""
  },
  {
   "property": "C56",
   "status": "proved",
   "theorems": [
    "C56_compile",
    "C56_int",
    "C56_rational",
    "C56_literal_division_refuted"
   ],
   "note": "That the result is the value of the expression for every number type is refuted (C56_literal_division_refuted); the exact result is proved."
  },
  {
   "property": "C57",
   "status": "proved",
   "theorems": [
    "C57_meta_metaparse",
    "C57_same_functions",
    "C57_leading_whitespace_refuted"
   ],
   "note": "That the two examples accept the same texts is refuted by whitespace in front; agreement elsewhere is proved."
  },
  {
   "property": "C58",
   "status": "proved",
   "theorems": [
    "C58_grammar_calculator",
    "C58_agrees_with_calculator",
    "C58_calculator_refuted",
    "C58_default_limits_suffice"
   ],
   "note": "That it computes what calculator computes is refuted (C58_calculator_refuted); the exact domain is proved. Assumes the documented semantics of mpl::lambda and mpl::bind."
  },
  {
   "property": "C59",
   "status": "proved",
   "theorems": [
    "C59_complete",
    "C59_large_number",
    "C59_sound",
    "C59_exact",
    "C59_unambiguous",
    "C59_verdict",
    "C59_run_on_refuted",
    "C59_if_names_refuted",
    "C59_not_equal_refuted"
   ],
   "note": "That the parser accepts the documented language in general is refuted (names starting with if, /=); exact on the other texts, sound and complete bounds on all texts."
  },
  {
   "property": "C60",
   "status": "proved",
   "theorems": [
    "C60_exact",
    "C60_sound",
    "C60_one_value",
    "C60_depth",
    "C60_texts",
    "C60_texts_defined"
   ],
   "note": "Arithmetic with bool_ constants is taken as ill-formed and imported templates as strict functions on integers (simplifications of the model)."
  },
  {
   "property": "C61",
   "status": "proved",
   "theorems": [
    "C61_complete",
    "C61_exact",
    "C61_parameter_refuted",
    "C61_literal_refuted",
    "C61_endless_refuted"
   ],
   "note": "Refuted in general (parameters and literals given on as they are, recursive definitions without parameters); C60_exact says exactly which programs get a value."
  },
  {
   "property": "C62",
   "status": "proved",
   "theorems": [
    "C62_definitions",
    "C62_values",
    "C62_handcrafted"
   ],
   "note": ""
  },
  {
   "property": "C63",
   "status": "proved",
   "theorems": [
    "C63_calculator",
    "C63_calculator_with_parens",
    "C63_calculator_with_unary_ops",
    "C63_tutorial",
    "C63_blame_unique",
    "C63_no_blame_for_expressions"
   ],
   "note": ""
  },
  {
   "property": "C64",
   "status": "proved",
   "theorems": [
    "C64_the_rules_are_exact",
    "C64_found_eventually",
    "C64_at_most_one_result",
    "C64_no_result",
    "C64_build_parser"
   ],
   "note": ""
  },
  {
   "property": "C65",
   "status": "proved",
   "theorems": [
    "C65_strings",
    "C65_build_parser",
    "C65_strings_11",
    "C65_full_length",
    "C65_full_length_entire_input",
    "C65_full_length_refuted",
    "C65_full_length_keyword"
   ],
   "note": "Refuted for texts of exactly LIMIT_STRING_SIZE characters in C++98 (C65_full_length_refuted); what happens with them is proved. Parsers written by the user are assumed to treat strings like their characters."
  },
  {
   "property": "C66",
   "status": "proved",
   "theorems": [
    "C66_replace_in_parser",
    "C66_replace_in_program",
    "C66_replace_in_program_sound",
    "C66_replace_in_program_refuted",
    "C66_same_compilation"
   ],
   "note": "That a replacement which is right in the program before the change keeps all results is refuted (C66_replace_in_program_refuted)."
  },
  {
   "property": "C67",
   "status": "proved",
   "theorems": [
    "C67_laws",
    "C67_rewriting",
    "C67_rewritten_program",
    "C67_rewritten_compiles",
    "C67_one_of_nested_98_refuted",
    "C67_one_of_nested_98",
    "C67_transform_one_of_partial_refuted"
   ],
   "note": "Flattening choices is refuted in C++98 for inner choices without alternatives (C67_one_of_nested_98_refuted) and proved for the others (C67_one_of_nested_98)."
  },
  {
   "property": "C68",
   "status": "proved",
   "theorems": [
    "C68_format_character",
    "C68_format_character_refuted",
    "C68_random_string",
    "C68_nth_char",
    "C68_statistics"
   ],
   "note": "That characters written next to each other denote themselves is refuted for hexadecimal escapes (C68_format_character_refuted); the generator leaves these out."
  },
  {
   "property": "C69",
   "status": "proved",
   "theorems": [
    "C69_manual_mode",
    "C69_modes_terminate",
    "C69_manual_mode_refuted",
    "C69_hexadecimal_refuted",
    "C69_to_upper",
    "C69_to_upper_total",
    "C69_to_upper_refuted"
   ],
   "note": "The conversion is refuted for hexadecimal escapes and bare apostrophes (C69_hexadecimal_refuted, C69_manual_mode_refuted), which random_string never writes; to_upper is not upper-casing for other characters (C69_to_upper_refuted)."
  },
  {
   "property": "C70",
   "status": "proved",
   "theorems": [
    "C70_format_time",
    "C70_exact_refuted"
   ],
   "note": "Durations are exact numbers in the model; floating point rounding is not modelled."
  },
  {
   "property": "C71",
   "status": "proved",
   "theorems": [
    "C71_headers",
    "C71_preprocessor",
    "C71_sections_sorted",
    "C71_names",
    "C71_order_refuted"
   ],
   "note": "Refuted for sections that are not in the order of their numbers (C71_order_refuted). The preprocessor of the specification knows #ifdef, #ifndef, #define and #include, no other directives."
  },
  {
   "property": "C72",
   "status": "proved",
   "theorems": [
    "C72_pages",
    "C72_notes",
    "C72_two_digits_refuted",
    "C72_wrong_note_refuted",
    "C72_early_refuted"
   ],
   "note": "Refuted for numbers from ten on (C72_two_digits_refuted, C72_wrong_note_refuted) and for definitions before the first numbered section (C72_early_refuted)."
  },
  {
   "property": "C73",
   "status": "proved",
   "theorems": [
    "C73_notes_again",
    "C73_notes_keep",
    "C73_links_again",
    "C73_links_keep",
    "C73_once_refuted"
   ],
   "note": "That the second run gives the same as the first is refuted for the links (C73_once_refuted) and proved for the notes."
  },
  {
   "property": "C74",
   "status": "proved",
   "theorems": [
    "C74_links",
    "C74_files",
    "C74_text",
    "C74_last_refuted",
    "C74_unfinished_refuted",
    "C74_listing_refuted",
    "C74_words_refuted"
   ],
   "note": "Refuted for sessions at the end, unfinished commands and words on two lines and for listings with lines that look like commands (C74_listing_refuted, C74_last_refuted, C74_unfinished_refuted, C74_words_refuted)."
  },
  {
   "property": "C75",
   "status": "proved",
   "theorems": [
    "C75_everything"
   ],
   "note": ""
  },
  {
   "property": "C76",
   "status": "proved",
   "theorems": [
    "C76_header",
    "C76_too_large",
    "C76_no_limit",
    "C76_again",
    "C76_positive_refuted",
    "C76_sun_refuted"
   ],
   "note": "Refuted for the maximum 1, where the script fails (C76_positive_refuted), and for literals of 128 characters on Sun's compiler (C76_sun_refuted)."
  },
  {
   "property": "C77",
   "status": "proved",
   "theorems": [
    "C77_lists",
    "C77_same_lists",
    "C77_sums",
    "C77_directions",
    "C77_same_directions_refuted",
    "C77_separated",
    "C77_incomplete",
    "C77_grammar",
    "C77_optional_plus_refuted"
   ],
   "note": "That an optional + keeps the language and that the two directions always have the same outcome is refuted (C77_optional_plus_refuted, C77_same_directions_refuted); the parsers themselves are characterised exactly."
  },
  {
   "property": "C78",
   "status": "proved",
   "theorems": [
    "C78_only_calls_matter",
    "C78_calls_have_results",
    "C78_left_recursion",
    "C78_linear",
    "C78_depth",
    "C78_sharing_matters",
    "C78_fold_steps",
    "C78_quadratic"
   ],
   "note": "Counts applications p::apply<s, pos> of the parsers written in the program, and the steps of folds (the helper template of a fold, once for every number of items read), not the other helper templates of the library."
  },
  {
   "property": "C79",
   "status": "proved",
   "theorems": [
    "C79_unseen",
    "C79_far",
    "C79_build_parser"
   ],
   "note": ""
  },
  {
   "property": "C80",
   "status": "proved",
   "theorems": [
    "C80_headings",
    "C80_templates",
    "C80_one_heading",
    "C80_generates",
    "C80_lines"
   ],
   "note": "Regular expressions are modelled as the function they are; C80_headings relates them to the forms of the lines."
  },
  {
   "property": "C81",
   "status": "proved",
   "theorems": [
    "C81_generated",
    "C81_plotted_with",
    "C81_plotted_without",
    "C81_flaky_refuted",
    "C81_empty_refuted",
    "C81_names_refuted"
   ],
   "note": "Without the hypotheses there are counterexamples: C81_flaky_refuted, C81_empty_refuted, C81_names_refuted. The templating engine and the compiler are arguments."
  },
  {
   "property": "C82",
   "status": "proved",
   "theorems": [
    "C82_any_order",
    "C82_standard",
    "C82_same",
    "C82_again",
    "C82_left_alone",
    "C82_macros",
    "C82_public",
    "C82_alone_refuted",
    "C82_literal_refuted",
    "C82_string98_refuted",
    "C82_all_refuted"
   ],
   "note": "Refuted for one header that needs another one, for the macro of v1/string.hpp with string literal templates, for BOOST_METAPARSE_STRING in C++98 and for string_value.hpp in boost/metaparse.hpp (C82_alone_refuted, C82_literal_refuted, C82_string98_refuted, C82_all_refuted). The headers are reduced to directives and names."
  },
  {
   "property": "C83",
   "status": "proved",
   "theorems": [
    "C83_given_a_position",
    "C83_given_a_metafunction",
    "C83_never_another_result",
    "C83_position_test",
    "C83_every_parser_refuted",
    "C83_values_refuted",
    "C83_evaluated_results",
    "C83_accessors",
    "C83_accessors_agree",
    "C83_unless_error",
    "C83_results_evaluate",
    "C83_one_meaning",
    "C83_positions",
    "C83_comparison"
   ],
   "note": "Refuted for fail_at_first_char_expected, and for the results being values (C83_every_parser_refuted, C83_values_refuted). Parsers written by the user are assumed to evaluate the position they are given."
  },
  {
   "property": "C84",
   "status": "proved",
   "theorems": [
    "C84_checkout",
    "C84_commits",
    "C84_update",
    "C84_failed_update",
    "C84_unreadable",
    "C84_other_action",
    "C84_defaults",
    "C84_read_back",
    "C84_update_checkout",
    "C84_failed_update_refuted",
    "C84_only_listed_refuted",
    "C84_shipped"
   ],
   "note": "Two refutations: C84_failed_update_refuted, C84_only_listed_refuted. The programs run are assumed not to touch the file of the dependencies; argparse is modelled only for the actions and the defaults."
  },
  {
   "property": "C85",
   "status": "proved",
   "theorems": [
    "C85_read",
    "C85_only_read",
    "C85_definitions_decide",
    "C85_layout",
    "C85_order",
    "C85_unused",
    "C85_replaced",
    "C85_replaced_refuted",
    "C85_renaming",
    "C85_inlining"
   ],
   "note": "Refuted for a rule with an action that is replaced without one (C85_replaced_refuted)."
  },
  {
   "property": "C86",
   "status": "proved",
   "theorems": [
    "C86_messages_erased",
    "C86_messages_irrelevant",
    "C86_change_error_message_refuted",
    "C86_message_dependent_refuted",
    "C86_partial_message_function_refuted"
   ],
   "note": "Refuted for error transformers that look at the message (C86_message_dependent_refuted), for partial functions on messages (C86_partial_message_function_refuted) and for leaving out change_error_message (C86_change_error_message_refuted)."
  },
  {
   "property": "C87",
   "status": "proved",
   "theorems": [
    "C87_counters",
    "C87_no_overflow",
    "C87_bound_reached"
   ],
   "note": ""
  },
  {
   "property": "C88",
   "status": "proved",
   "theorems": [
    "C88_parsers_recognise",
    "C88_one_verdict",
    "C88_same_language",
    "C88_every_grammar",
    "C88_reject_incomplete_refuted",
    "C88_all_alternatives_refuted"
   ],
   "note": "Refuted for the reject_incomplete variants (C88_reject_incomplete_refuted) and for choices with an alternative that does not finish (C88_all_alternatives_refuted)."
  },
  {
   "property": "C89",
   "status": "proved",
   "theorems": [
    "C89_same_up_to_names",
    "C89_unused",
    "C89_renaming",
    "C89_inlining",
    "C89_only_for_recursion",
    "C89_same_compilation",
    "C89_folding_refuted"
   ],
   "note": "Writing a name instead of its definition can lose results (C89_folding_refuted)."
  },
  {
   "property": "C90",
   "status": "proved",
   "theorems": [
    "C90_accepted_is_derived",
    "C90_verdict",
    "C90_derived_is_recognised",
    "C90_whole_text",
    "C90_one_word",
    "C90_order",
    "C90_parsers",
    "C90_tables",
    "C90_order_refuted",
    "C90_empty_last_refuted"
   ],
   "note": ""
  },
  {
   "property": "C91",
   "status": "proved",
   "theorems": [
    "C91_error_position",
    "C91_accepted",
    "C91_entire_input",
    "C91_unfinished",
    "C91_same_error",
    "C91_verdict",
    "C91_repetition_refuted",
    "C91_change_error_message_refuted",
    "C91_optional_refuted"
   ],
   "note": ""
  },
  {
   "property": "C92",
   "status": "proved",
   "theorems": [
    "C92_accepted_has_value",
    "C92_values_derive",
    "C92_one_value",
    "C92_result",
    "C92_value",
    "C92_value_entire_input",
    "C92_order",
    "C92_order_refuted",
    "C92_repetition_refuted"
   ],
   "note": ""
  },
  {
   "property": "C93",
   "status": "proved",
   "theorems": [
    "C93_tokens",
    "C93_inserted",
    "C93_accepted",
    "C93_rejected",
    "C93_no_result",
    "C93_compiled",
    "C93_compiled_from_token",
    "C93_calculators",
    "C93_functions",
    "C93_tutorial",
    "C93_meta_hs",
    "C93_messages_refuted",
    "C93_words_refuted",
    "C93_rational_refuted",
    "C93_rules_refuted"
   ],
   "note": ""
  },
  {
   "property": "C94",
   "status": "proved",
   "theorems": [
    "C94_laws",
    "C94_goes_ahead",
    "C94_replace_in_parser",
    "C94_replace_in_program",
    "C94_same_compilation",
    "C94_hidden",
    "C94_keyword_hidden",
    "C94_longest_keyword",
    "C94_keywords_evaluated",
    "C94_swap_refuted",
    "C94_right_factoring_refuted",
    "C94_hidden_position_refuted"
   ],
   "note": ""
  },
  {
   "property": "C95",
   "status": "proved",
   "theorems": [
    "C95_precedence",
    "C95_rejected",
    "C95_precedence_strict",
    "C95_evaluated",
    "C95_one_value",
    "C95_compiles",
    "C95_calculators",
    "C95_tutorial",
    "C95_tutorial_strict",
    "C95_shared_operator_refuted"
   ],
   "note": ""
  },
  {
   "property": "C96",
   "status": "proved",
   "theorems": [
    "C96_laws",
    "C96_same_compilation",
    "C96_turn_refuted",
    "C96_int_overflow_refuted",
    "C96_each_partial_refuted",
    "C96_recursion",
    "C96_recursion_evaluated",
    "C96_recursion_start_refuted",
    "C96_greedy",
    "C96_separated",
    "C96_separated_before_after",
    "C96_separated_refuted"
   ],
   "note": ""
  },
  {
   "property": "C97",
   "status": "proved",
   "theorems": [
    "C97_accepted",
    "C97_compiles",
    "C97_only",
    "C97_written",
    "C97_one_formula",
    "C97_written_once",
    "C97_calculators",
    "C97_calculators_exactly",
    "C97_tutorial",
    "C97_right_operand_refuted"
   ],
   "note": ""
  },
  {
   "property": "C98",
   "status": "proved",
   "theorems": [
    "C98_read",
    "C98_accepted",
    "C98_precedence",
    "C98_one_value",
    "C98_left",
    "C98_compiles",
    "C98_tutorial",
    "C98_lenient_refuted"
   ],
   "note": ""
  },
  {
   "property": "C99",
   "status": "proved",
   "theorems": [
    "C99_error",
    "C99_missing",
    "C99_strict_folds",
    "C99_reported",
    "C99_reported_exactly",
    "C99_value_or_error",
    "C99_calculators",
    "C99_undefined_refuted"
   ],
   "note": ""
  },
  {
   "property": "C100",
   "status": "proved",
   "theorems": [
    "C100_accepted",
    "C100_compiles",
    "C100_only",
    "C100_written",
    "C100_one_formula",
    "C100_written_once",
    "C100_left",
    "C100_numbers"
   ],
   "note": ""
  },
  {
   "property": "C101",
   "status": "proved",
   "theorems": [
    "C101_fault",
    "C101_reported",
    "C101_numbers",
    "C101_tutorial",
    "C101_no_operator",
    "C101_calculators",
    "C101_longest"
   ],
   "note": ""
  }
 ]
}