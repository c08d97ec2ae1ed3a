(** The headers of the library, include/boost/metaparse.hpp and everything below
    include/boost/metaparse, as the preprocessor and the declarations see them: the
    directives in their order, with their conditions, and in between what the text
    declares, defines and uses.  Each definition gives one file; the order of the
    files is such that every file comes after those it includes.

    Simplified: headers of other libraries are not followed.  Of the text only the
    names of the namespaces boost::metaparse... are given, each use once for every
    run of text.  A name ending in _N stands for the names made by BOOST_PP_CAT
    from one beginning.  The replacement of a macro that is undefined again in the
    same file is given where it is defined, of the other macros it is said what
    they mention (where they are used is up to the user).  The 2065 macros for
    the characters of a text of cpp11/impl/string.hpp are left out, they are
    in Headers.v.  Values of macros that are not numbers are 0. *)

From Coq Require Import ZArith List.
From Verif Require Import Include.
Import ListNotations.
Open Scope Z_scope.

(** ** The macros *)
Definition BOOST_METAPARSE_V1_FWD_ACCEPT_HPP : macro := 1%positive.
Definition BOOST_METAPARSE_V1_FWD_GET_REMAINING_HPP : macro := 2%positive.
Definition BOOST_METAPARSE_V1_FWD_GET_POSITION_HPP : macro := 3%positive.
Definition BOOST_METAPARSE_V1_FWD_GET_RESULT_HPP : macro := 4%positive.
Definition BOOST_METAPARSE_V1_ACCEPT_TAG_HPP : macro := 5%positive.
Definition BOOST_METAPARSE_V1_ACCEPT_HPP : macro := 6%positive.
Definition BOOST_METAPARSE_ACCEPT_HPP : macro := 7%positive.
Definition BOOST_METAPARSE_ACCEPT_TAG_HPP : macro := 8%positive.
Definition BOOST_METAPARSE_V1_GET_RESULT_HPP : macro := 9%positive.
Definition BOOST_METAPARSE_V1_FWD_REJECT_HPP : macro := 10%positive.
Definition BOOST_METAPARSE_V1_FWD_GET_MESSAGE_HPP : macro := 11%positive.
Definition BOOST_METAPARSE_V1_FAIL_TAG_HPP : macro := 12%positive.
Definition BOOST_METAPARSE_V1_REJECT_HPP : macro := 13%positive.
Definition BOOST_METAPARSE_V1_IS_ERROR_HPP : macro := 14%positive.
Definition BOOST_METAPARSE_V1_ACCEPT_WHEN_HPP : macro := 15%positive.
Definition BOOST_METAPARSE_ACCEPT_WHEN_HPP : macro := 16%positive.
Definition BOOST_METAPARSE_CONFIG_HPP : macro := 17%positive.
Definition BOOST_NO_CXX11_CONSTEXPR : macro := 18%positive.
Definition BOOST_NO_CONSTEXPR : macro := 19%positive.
Definition clang__ : macro := 20%positive.
Definition GNUC__ : macro := 21%positive.
Definition GNUC_MINOR__ : macro := 22%positive.
Definition BOOST_NO_CONSTEXPR_C_STR : macro := 23%positive.
Definition BOOST_METAPARSE_STD : macro := 24%positive.
Definition BOOST_NO_CXX11_VARIADIC_TEMPLATES : macro := 25%positive.
Definition BOOST_NO_VARIADIC_TEMPLATES : macro := 26%positive.
Definition MSC_VER : macro := 27%positive.
Definition BOOST_GCC : macro := 28%positive.
Definition BOOST_NO_CXX14_CONSTEXPR : macro := 29%positive.
Definition BOOST_METAPARSE_VARIADIC_STRING : macro := 30%positive.
Definition BOOST_METAPARSE_V1_FAIL_HPP : macro := 31%positive.
Definition BOOST_METAPARSE_V1_GET_POSITION_HPP : macro := 32%positive.
Definition BOOST_METAPARSE_V1_CPP11_IMPL_EVAL_LATER_RESULT_HPP : macro := 33%positive.
Definition BOOST_METAPARSE_V1_DEFINE_ERROR_HPP : macro := 34%positive.
Definition BOOST_METAPARSE_V1_DEFINE_ERROR : macro := 35%positive.
Definition BOOST_METAPARSE_V1_ERROR_NONE_OF_THE_EXPECTED_CASES_FOUND_HPP : macro := 36%positive.
Definition BOOST_METAPARSE_V1_CPP11_ONE_OF_HPP : macro := 37%positive.
Definition BOOST_METAPARSE_V1_CPP98_IMPL_LATER_RESULT_HPP : macro := 38%positive.
Definition BOOST_METAPARSE_V1_IMPL_ONE_OF_FWD_OP_HPP : macro := 39%positive.
Definition BOOST_METAPARSE_V1_IMPL_ONE_OF_HPP : macro := 40%positive.
Definition BOOST_METAPARSE_LIMIT_ONE_OF_SIZE_HPP : macro := 41%positive.
Definition BOOST_METAPARSE_LIMIT_ONE_OF_SIZE : macro := 42%positive.
Definition BOOST_METAPARSE_V1_CPP98_ONE_OF_HPP : macro := 43%positive.
Definition BOOST_METAPARSE_V1_ONE_OF_HPP : macro := 44%positive.
Definition BOOST_METAPARSE_V1_ERROR_DIGIT_EXPECTED_HPP : macro := 45%positive.
Definition BOOST_METAPARSE_V1_ERROR_UNEXPECTED_END_OF_INPUT_HPP : macro := 46%positive.
Definition BOOST_METAPARSE_V1_FWD_NEXT_CHAR_HPP : macro := 47%positive.
Definition BOOST_METAPARSE_V1_NEXT_CHAR_HPP : macro := 48%positive.
Definition BOOST_METAPARSE_V1_FWD_NEXT_LINE_IMPL_HPP : macro := 49%positive.
Definition BOOST_METAPARSE_V1_NEXT_LINE_HPP : macro := 50%positive.
Definition BOOST_METAPARSE_V1_FWD_GET_PREV_CHAR_HPP : macro := 51%positive.
Definition BOOST_METAPARSE_V1_GET_PREV_CHAR_HPP : macro := 52%positive.
Definition BOOST_METAPARSE_V1_ONE_CHAR_HPP : macro := 53%positive.
Definition BOOST_METAPARSE_V1_CHANGE_ERROR_MESSAGE_HPP : macro := 54%positive.
Definition BOOST_METAPARSE_V1_UTIL_IN_RANGE_C_HPP : macro := 55%positive.
Definition BOOST_METAPARSE_V1_UTIL_IS_DIGIT_HPP : macro := 56%positive.
Definition BOOST_METAPARSE_V1_DIGIT_HPP : macro := 57%positive.
Definition BOOST_METAPARSE_V1_ERROR_LETTER_EXPECTED_HPP : macro := 58%positive.
Definition BOOST_METAPARSE_V1_UTIL_IS_UCASE_LETTER_HPP : macro := 59%positive.
Definition BOOST_METAPARSE_V1_UTIL_IS_LCASE_LETTER_HPP : macro := 60%positive.
Definition BOOST_METAPARSE_V1_UTIL_IS_LETTER_HPP : macro := 61%positive.
Definition BOOST_METAPARSE_V1_LETTER_HPP : macro := 62%positive.
Definition BOOST_METAPARSE_V1_ALPHANUM_HPP : macro := 63%positive.
Definition BOOST_METAPARSE_ALPHANUM_HPP : macro := 64%positive.
Definition BOOST_METAPARSE_V1_GET_REMAINING_HPP : macro := 65%positive.
Definition BOOST_METAPARSE_V1_ALWAYS_HPP : macro := 66%positive.
Definition BOOST_METAPARSE_V1_ERROR_LITERAL_EXPECTED_HPP : macro := 67%positive.
Definition BOOST_METAPARSE_V1_IMPL_IS_CHAR_C_HPP : macro := 68%positive.
Definition BOOST_METAPARSE_V1_LIT_C_HPP : macro := 69%positive.
Definition BOOST_METAPARSE_V1_ALWAYS_C_HPP : macro := 70%positive.
Definition BOOST_METAPARSE_ALWAYS_C_HPP : macro := 71%positive.
Definition BOOST_METAPARSE_ALWAYS_HPP : macro := 72%positive.
Definition BOOST_METAPARSE_V1_FOLDL_HPP : macro := 73%positive.
Definition BOOST_METAPARSE_V1_IMPL_BACK_INSERTER_HPP : macro := 74%positive.
Definition BOOST_METAPARSE_V1_REPEATED_HPP : macro := 75%positive.
Definition BOOST_METAPARSE_REPEATED_HPP : macro := 76%positive.
Definition BOOST_METAPARSE_V1_FOLDL1_HPP : macro := 77%positive.
Definition BOOST_METAPARSE_V1_REPEATED1_HPP : macro := 78%positive.
Definition BOOST_METAPARSE_REPEATED1_HPP : macro := 79%positive.
Definition BOOST_METAPARSE_V1_IMPL_VOID_HPP : macro := 80%positive.
Definition BOOST_METAPARSE_V1_ERROR_EXPECTED_TO_FAIL_HPP : macro := 81%positive.
Definition BOOST_METAPARSE_V1_FAIL_AT_FIRST_CHAR_EXPECTED_HPP : macro := 82%positive.
Definition BOOST_METAPARSE_V1_FOLDL_REJECT_INCOMPLETE_HPP : macro := 83%positive.
Definition BOOST_METAPARSE_V1_FOLDL_REJECT_INCOMPLETE1_HPP : macro := 84%positive.
Definition BOOST_METAPARSE_V1_REPEATED_REJECT_INCOMPLETE1_HPP : macro := 85%positive.
Definition BOOST_METAPARSE_REPEATED_REJECT_INCOMPLETE1_HPP : macro := 86%positive.
Definition BOOST_METAPARSE_V1_REPEATED_REJECT_INCOMPLETE_HPP : macro := 87%positive.
Definition BOOST_METAPARSE_REPEATED_REJECT_INCOMPLETE_HPP : macro := 88%positive.
Definition BOOST_METAPARSE_V1_CPP11_REPEATED_ONE_OF1_HPP : macro := 89%positive.
Definition BOOST_METAPARSE_V1_CPP98_REPEATED_ONE_OF1_HPP : macro := 90%positive.
Definition BOOST_METAPARSE_V1_REPEATED_ONE_OF1_HPP : macro := 91%positive.
Definition BOOST_METAPARSE_REPEATED_ONE_OF1_HPP : macro := 92%positive.
Definition BOOST_METAPARSE_V1_CPP11_REPEATED_ONE_OF_HPP : macro := 93%positive.
Definition BOOST_METAPARSE_V1_CPP98_REPEATED_ONE_OF_HPP : macro := 94%positive.
Definition BOOST_METAPARSE_V1_REPEATED_ONE_OF_HPP : macro := 95%positive.
Definition BOOST_METAPARSE_REPEATED_ONE_OF_HPP : macro := 96%positive.
Definition BOOST_METAPARSE_V1_FWD_BUILD_PARSER_HPP : macro := 97%positive.
Definition BOOST_METAPARSE_V1_FWD_SOURCE_POSITION_HPP : macro := 98%positive.
Definition BOOST_METAPARSE_V1_FWD_GET_COL_HPP : macro := 99%positive.
Definition BOOST_METAPARSE_V1_GET_COL_HPP : macro := 100%positive.
Definition BOOST_METAPARSE_V1_FWD_GET_LINE_HPP : macro := 101%positive.
Definition BOOST_METAPARSE_V1_GET_LINE_HPP : macro := 102%positive.
Definition BOOST_METAPARSE_V1_SOURCE_POSITION_TAG_HPP : macro := 103%positive.
Definition BOOST_METAPARSE_V1_SOURCE_POSITION_HPP : macro := 104%positive.
Definition BOOST_METAPARSE_V1_START_HPP : macro := 105%positive.
Definition BOOST_METAPARSE_V1_GET_MESSAGE_HPP : macro := 106%positive.
Definition BOOST_METAPARSE_V1_BUILD_PARSER_HPP : macro := 107%positive.
Definition BOOST_METAPARSE_BUILD_PARSER_HPP : macro := 108%positive.
Definition BOOST_METAPARSE_CHANGE_ERROR_MESSAGE_HPP : macro := 109%positive.
Definition BOOST_METAPARSE_V1_DEBUG_PARSING_ERROR_HPP : macro := 110%positive.
Definition BOOST_METAPARSE_DEBUG_PARSING_ERROR_HPP : macro := 111%positive.
Definition BOOST_METAPARSE_DEFINE_ERROR_HPP : macro := 112%positive.
Definition BOOST_METAPARSE_DEFINE_ERROR : macro := 113%positive.
Definition BOOST_METAPARSE_DIGIT_HPP : macro := 114%positive.
Definition BOOST_METAPARSE_V1_UTIL_UNLESS_ERROR_HPP : macro := 115%positive.
Definition BOOST_METAPARSE_V1_TRANSFORM_HPP : macro := 116%positive.
Definition BOOST_METAPARSE_V1_UTIL_DIGIT_TO_INT_C_HPP : macro := 117%positive.
Definition BOOST_METAPARSE_V1_UTIL_DIGIT_TO_INT_HPP : macro := 118%positive.
Definition BOOST_METAPARSE_V1_DIGIT_VAL_HPP : macro := 119%positive.
Definition BOOST_METAPARSE_DIGIT_VAL_HPP : macro := 120%positive.
Definition BOOST_METAPARSE_V1_END_OF_INPUT_EXPECTED_HPP : macro := 121%positive.
Definition BOOST_METAPARSE_V1_EMPTY_HPP : macro := 122%positive.
Definition BOOST_METAPARSE_EMPTY_HPP : macro := 123%positive.
Definition BOOST_METAPARSE_V1_RETURN__HPP : macro := 124%positive.
Definition BOOST_METAPARSE_V1_CPP11_IMPL_NTH_OF_C_SKIP_REMANING_HPP : macro := 125%positive.
Definition BOOST_METAPARSE_V1_CPP11_IMPL_NTH_OF_C_HPP : macro := 126%positive.
Definition BOOST_METAPARSE_V1_ERROR_INDEX_OUT_OF_RANGE_HPP : macro := 127%positive.
Definition BOOST_METAPARSE_V1_CPP11_FIRST_OF_HPP : macro := 128%positive.
Definition BOOST_METAPARSE_V1_CPP98_IMPL_SKIP_SEQ_HPP : macro := 129%positive.
Definition BOOST_METAPARSE_V1_CPP98_IMPL_NTH_OF_C_IMPL_HPP : macro := 130%positive.
Definition BOOST_METAPARSE_LIMIT_SEQUENCE_SIZE_HPP : macro := 131%positive.
Definition BOOST_METAPARSE_LIMIT_SEQUENCE_SIZE : macro := 132%positive.
Definition BOOST_METAPARSE_V1_CPP98_IMPL_NTH_OF_C_HPP : macro := 133%positive.
Definition BOOST_METAPARSE_NTH_OF_CASE : macro := 134%positive.
Definition BOOST_METAPARSE_V1_CPP98_NTH_OF_C_HPP : macro := 135%positive.
Definition BOOST_METAPARSE_NTH_OF_N : macro := 136%positive.
Definition BOOST_METAPARSE_V1_CPP98_FIRST_OF_HPP : macro := 137%positive.
Definition BOOST_METAPARSE_V1_FIRST_OF_HPP : macro := 138%positive.
Definition BOOST_METAPARSE_V1_ENTIRE_INPUT_HPP : macro := 139%positive.
Definition BOOST_METAPARSE_ENTIRE_INPUT_HPP : macro := 140%positive.
Definition BOOST_METAPARSE_ERROR_DIGIT_EXPECTED_HPP : macro := 141%positive.
Definition BOOST_METAPARSE_END_OF_INPUT_EXPECTED_HPP : macro := 142%positive.
Definition BOOST_METAPARSE_ERROR_INDEX_OUT_OF_RANGE_HPP : macro := 143%positive.
Definition BOOST_METAPARSE_ERROR_LETTER_EXPECTED_HPP : macro := 144%positive.
Definition BOOST_METAPARSE_ERROR_LITERAL_EXPECTED_HPP : macro := 145%positive.
Definition BOOST_METAPARSE_ERROR_NONE_OF_THE_EXPECTED_CASES_FOUND_HPP : macro := 146%positive.
Definition BOOST_METAPARSE_V1_ERROR_UNEXPECTED_CHARACTER_HPP : macro := 147%positive.
Definition BOOST_METAPARSE_ERROR_UNEXPECTED_CHARACTER_HPP : macro := 148%positive.
Definition BOOST_METAPARSE_ERROR_UNEXPECTED_END_OF_INPUT_HPP : macro := 149%positive.
Definition BOOST_METAPARSE_V1_ERROR_UNPAIRED_HPP : macro := 150%positive.
Definition BOOST_METAPARSE_ERROR_UNPAIRED_HPP : macro := 151%positive.
Definition BOOST_METAPARSE_V1_ERROR_WHITESPACE_EXPECTED_HPP : macro := 152%positive.
Definition BOOST_METAPARSE_ERROR_WHITESPACE_EXPECTED_HPP : macro := 153%positive.
Definition BOOST_METAPARSE_V1_EXCEPT_HPP : macro := 154%positive.
Definition BOOST_METAPARSE_EXCEPT_HPP : macro := 155%positive.
Definition BOOST_METAPARSE_FAIL_AT_FIRST_CHAR_EXPECTED_HPP : macro := 156%positive.
Definition BOOST_METAPARSE_FAIL_HPP : macro := 157%positive.
Definition BOOST_METAPARSE_FAIL_TAG_HPP : macro := 158%positive.
Definition BOOST_METAPARSE_FIRST_OF_HPP : macro := 159%positive.
Definition BOOST_METAPARSE_FOLDL1_HPP : macro := 160%positive.
Definition BOOST_METAPARSE_FOLDL_REJECT_INCOMPLETE_HPP : macro := 161%positive.
Definition BOOST_METAPARSE_FOLDL_REJECT_INCOMPLETE1_HPP : macro := 162%positive.
Definition BOOST_METAPARSE_V1_FOLDL_REJECT_INCOMPLETE_START_WITH_PARSER_HPP : macro := 163%positive.
Definition BOOST_METAPARSE_FOLDL_REJECT_INCOMPLETE_START_WITH_PARSER_HPP : macro := 164%positive.
Definition BOOST_METAPARSE_FOLDL_HPP : macro := 165%positive.
Definition BOOST_METAPARSE_V1_FOLDL_START_WITH_PARSER_HPP : macro := 166%positive.
Definition BOOST_METAPARSE_FOLDL_START_WITH_PARSER_HPP : macro := 167%positive.
Definition BOOST_METAPARSE_V1_FOLDR_START_WITH_PARSER_HPP : macro := 168%positive.
Definition BOOST_METAPARSE_V1_FOLDR_HPP : macro := 169%positive.
Definition BOOST_METAPARSE_V1_FOLDR1_HPP : macro := 170%positive.
Definition BOOST_METAPARSE_FOLDR1_HPP : macro := 171%positive.
Definition BOOST_METAPARSE_V1_FOLDR_REJECT_INCOMPLETE_HPP : macro := 172%positive.
Definition BOOST_METAPARSE_FOLDR_REJECT_INCOMPLETE_HPP : macro := 173%positive.
Definition BOOST_METAPARSE_V1_FOLDR_REJECT_INCOMPLETE1_HPP : macro := 174%positive.
Definition BOOST_METAPARSE_FOLDR_REJECT_INCOMPLETE1_HPP : macro := 175%positive.
Definition BOOST_METAPARSE_FOLDR_HPP : macro := 176%positive.
Definition BOOST_METAPARSE_FOLDR_START_WITH_PARSER_HPP : macro := 177%positive.
Definition BOOST_METAPARSE_GET_COL_HPP : macro := 178%positive.
Definition BOOST_METAPARSE_GET_LINE_HPP : macro := 179%positive.
Definition BOOST_METAPARSE_GET_MESSAGE_HPP : macro := 180%positive.
Definition BOOST_METAPARSE_GET_POSITION_HPP : macro := 181%positive.
Definition BOOST_METAPARSE_GET_PREV_CHAR_HPP : macro := 182%positive.
Definition BOOST_METAPARSE_GET_REMAINING_HPP : macro := 183%positive.
Definition BOOST_METAPARSE_GET_RESULT_HPP : macro := 184%positive.
Definition BOOST_METAPARSE_V1_CPP11_IMPL_PUSH_FRONT_RESULT_HPP : macro := 185%positive.
Definition BOOST_METAPARSE_V1_CPP11_SEQUENCE_HPP : macro := 186%positive.
Definition BOOST_METAPARSE_V1_IMPL_APPLY_PARSER_HPP : macro := 187%positive.
Definition BOOST_METAPARSE_V1_CPP98_IMPL_SEQUENCE_IMPL_HPP : macro := 188%positive.
Definition BOOST_METAPARSE_V1_CPP98_IMPL_SEQUENCE_HPP : macro := 189%positive.
Definition BOOST_METAPARSE_SEQUENCE_CASE : macro := 190%positive.
Definition BOOST_METAPARSE_V1_CPP98_SEQUENCE_HPP : macro := 191%positive.
Definition BOOST_METAPARSE_SEQUENCE_N : macro := 192%positive.
Definition BOOST_METAPARSE_V1_SEQUENCE_HPP : macro := 193%positive.
Definition BOOST_METAPARSE_V1_LIT_HPP : macro := 194%positive.
Definition BOOST_METAPARSE_V1_UTIL_IS_WHITESPACE_C_HPP : macro := 195%positive.
Definition BOOST_METAPARSE_V1_UTIL_IS_WHITESPACE_HPP : macro := 196%positive.
Definition BOOST_METAPARSE_V1_SPACE_HPP : macro := 197%positive.
Definition BOOST_METAPARSE_V1_TOKEN_HPP : macro := 198%positive.
Definition BOOST_METAPARSE_V1_KEYWORD_HPP : macro := 199%positive.
Definition BOOST_METAPARSE_V1_CPP11_NTH_OF_C_HPP : macro := 200%positive.
Definition BOOST_METAPARSE_V1_NTH_OF_C_HPP : macro := 201%positive.
Definition BOOST_METAPARSE_V1_CPP11_NTH_OF_HPP : macro := 202%positive.
Definition BOOST_METAPARSE_V1_CPP98_NTH_OF_HPP : macro := 203%positive.
Definition BOOST_METAPARSE_V1_NTH_OF_HPP : macro := 204%positive.
Definition BOOST_METAPARSE_V1_TRANSFORM_ERROR_MESSAGE_HPP : macro := 205%positive.
Definition BOOST_METAPARSE_V1_KEEP_MIDDLE_HPP : macro := 206%positive.
Definition BOOST_METAPARSE_V1_CPP11_LAST_OF_HPP : macro := 207%positive.
Definition BOOST_METAPARSE_V1_CPP98_LAST_OF_HPP : macro := 208%positive.
Definition BOOST_METAPARSE_LAST_OF_N : macro := 209%positive.
Definition BOOST_METAPARSE_V1_LAST_OF_HPP : macro := 210%positive.
Definition BOOST_METAPARSE_V1_CPP11_IMPL_IS_NONE_C_IMPL_HPP : macro := 211%positive.
Definition BOOST_METAPARSE_V1_CPP11_IMPL_IS_NONE_C_HPP : macro := 212%positive.
Definition BOOST_METAPARSE_V1_CPP11_ONE_CHAR_EXCEPT_C_HPP : macro := 213%positive.
Definition BOOST_METAPARSE_LIMIT_ONE_CHAR_EXCEPT_SIZE_HPP : macro := 214%positive.
Definition BOOST_METAPARSE_LIMIT_ONE_CHAR_EXCEPT_SIZE : macro := 215%positive.
Definition BOOST_METAPARSE_V1_CPP98_IMPL_IS_NONE_HPP : macro := 216%positive.
Definition BOOST_METAPARSE_DEFINE_IS_NONE : macro := 217%positive.
Definition BOOST_METAPARSE_V1_CPP98_ONE_CHAR_EXCEPT_C_HPP : macro := 218%positive.
Definition BOOST_METAPARSE_WRAP : macro := 219%positive.
Definition MPLLBIS_METAPARSE_ONE_CHAR_EXCEPT_CASE : macro := 220%positive.
Definition BOOST_METAPARSE_V1_ONE_CHAR_EXCEPT_C_HPP : macro := 221%positive.
Definition BOOST_METAPARSE_V1_CPP11_FWD_STRING_HPP : macro := 222%positive.
Definition BOOST_METAPARSE_V1_STRING_TAG_HPP : macro := 223%positive.
Definition BOOST_METAPARSE_V1_IMPL_STRING_ITERATOR_TAG_HPP : macro := 224%positive.
Definition BOOST_METAPARSE_V1_CPP11_IMPL_AT_C_HPP : macro := 225%positive.
Definition BOOST_METAPARSE_LIMIT_STRING_SIZE_HPP : macro := 226%positive.
Definition BOOST_METAPARSE_LIMIT_STRING_SIZE : macro := 227%positive.
Definition BOOST_METAPARSE_V1_IMPL_NO_CHAR_HPP : macro := 228%positive.
Definition BOOST_NO_CHAR : macro := 229%positive.
Definition BOOST_METAPARSE_V1_CPP98_FWD_STRING_HPP : macro := 230%positive.
Definition BOOST_METAPARSE_V1_CPP98_IMPL_AT_C_HPP : macro := 231%positive.
Definition BOOST_METAPARSE_STRING_CASE : macro := 232%positive.
Definition BOOST_METAPARSE_V1_IMPL_AT_C_HPP : macro := 233%positive.
Definition BOOST_METAPARSE_V1_IMPL_STRING_ITERATOR_HPP : macro := 234%positive.
Definition BOOST_METAPARSE_V1_CPP11_IMPL_EMPTY_STRING_HPP : macro := 235%positive.
Definition BOOST_METAPARSE_V1_CPP11_IMPL_SIZE_HPP : macro := 236%positive.
Definition BOOST_METAPARSE_V1_CPP11_IMPL_POP_FRONT_HPP : macro := 237%positive.
Definition BOOST_METAPARSE_V1_CPP11_IMPL_PUSH_FRONT_C_HPP : macro := 238%positive.
Definition BOOST_METAPARSE_V1_CPP11_IMPL_PUSH_BACK_C_HPP : macro := 239%positive.
Definition BOOST_METAPARSE_V1_CPP11_IMPL_POP_BACK_HPP : macro := 240%positive.
Definition BOOST_METAPARSE_V1_CPP11_IMPL_STRING_AT_HPP : macro := 241%positive.
Definition BOOST_METAPARSE_V1_STRING_AT : macro := 242%positive.
Definition BOOST_METAPARSE_V1_CPP11_IMPL_CONCAT_HPP : macro := 243%positive.
Definition BOOST_METAPARSE_V1_CPP11_IMPL_STRING_HPP : macro := 244%positive.
Definition SUNPRO_CC : macro := 245%positive.
Definition BOOST_METAPARSE_V1_STRING : macro := 246%positive.
Definition BOOST_METAPARSE_V1_CPP11_STRING_HPP : macro := 247%positive.
Definition HAS_STRING_LITERAL_TEMPLATES : macro := 248%positive.
Definition BOOST_METAPARSE_V1_CPP98_IMPL_EMPTY_STRING_HPP : macro := 249%positive.
Definition BOOST_METAPARSE_V1_CPP98_IMPL_SIZE_HPP : macro := 250%positive.
Definition BOOST_METAPARSE_V1_CPP98_IMPL_POP_FRONT_HPP : macro := 251%positive.
Definition BOOST_METAPARSE_POP_FRONT : macro := 252%positive.
Definition BOOST_METAPARSE_V1_CPP98_IMPL_PUSH_FRONT_C_HPP : macro := 253%positive.
Definition BOOST_METAPARSE_V1_CPP98_IMPL_UPDATE_C_HPP : macro := 254%positive.
Definition BOOST_METAPARSE_ARGN : macro := 255%positive.
Definition BOOST_METAPARSE_UPDATE : macro := 256%positive.
Definition BOOST_METAPARSE_V1_CPP98_IMPL_PUSH_BACK_C_HPP : macro := 257%positive.
Definition BOOST_METAPARSE_V1_CPP98_IMPL_POP_BACK_HPP : macro := 258%positive.
Definition BOOST_METAPARSE_V1_CPP98_STRING_HPP : macro := 259%positive.
Definition BOOST_METAPARSE_V1_CONFIG_NO_BOOST_METAPARSE_STRING : macro := 260%positive.
Definition BOOST_METAPARSE_V1_STRING_HPP : macro := 261%positive.
Definition BOOST_METAPARSE_V1_IMPL_FRONT_INSERTER_HPP : macro := 262%positive.
Definition BOOST_METAPARSE_V1_GRAMMAR_HPP : macro := 263%positive.
Definition BOOST_METAPARSE_GRAMMAR_HPP : macro := 264%positive.
Definition BOOST_METAPARSE_V1_IF__HPP : macro := 265%positive.
Definition BOOST_METAPARSE_IF__HPP : macro := 266%positive.
Definition BOOST_METAPARSE_V1_IMPL_NEXT_DIGIT_HPP : macro := 267%positive.
Definition BOOST_METAPARSE_V1_INT__HPP : macro := 268%positive.
Definition BOOST_METAPARSE_INT_HPP : macro := 269%positive.
Definition BOOST_METAPARSE_IS_ERROR_HPP : macro := 270%positive.
Definition BOOST_METAPARSE_V1_IMPL_FWD_ITERATE_IMPL_HPP : macro := 271%positive.
Definition BOOST_METAPARSE_V1_IMPL_ITERATE_IMPL_UNCHECKED_HPP : macro := 272%positive.
Definition BOOST_METAPARSE_V1_IMPL_ITERATE_IMPL_HPP : macro := 273%positive.
Definition BOOST_METAPARSE_V1_ITERATE_C_HPP : macro := 274%positive.
Definition BOOST_METAPARSE_ITERATE_C_HPP : macro := 275%positive.
Definition BOOST_METAPARSE_V1_ITERATE_HPP : macro := 276%positive.
Definition BOOST_METAPARSE_ITERATE_HPP : macro := 277%positive.
Definition BOOST_METAPARSE_KEYWORD_HPP : macro := 278%positive.
Definition BOOST_METAPARSE_LAST_OF_HPP : macro := 279%positive.
Definition BOOST_METAPARSE_LETTER_HPP : macro := 280%positive.
Definition BOOST_METAPARSE_LIT_C_HPP : macro := 281%positive.
Definition BOOST_METAPARSE_LIT_HPP : macro := 282%positive.
Definition BOOST_METAPARSE_V1_LOOK_AHEAD_HPP : macro := 283%positive.
Definition BOOST_METAPARSE_LOOK_AHEAD_HPP : macro := 284%positive.
Definition BOOST_METAPARSE_KEEP_MIDDLE_HPP : macro := 285%positive.
Definition BOOST_METAPARSE_NEXT_CHAR_HPP : macro := 286%positive.
Definition BOOST_METAPARSE_NEXT_LINE_HPP : macro := 287%positive.
Definition BOOST_METAPARSE_NTH_OF_C_HPP : macro := 288%positive.
Definition BOOST_METAPARSE_NTH_OF_HPP : macro := 289%positive.
Definition BOOST_METAPARSE_ONE_CHAR_EXCEPT_C_HPP : macro := 290%positive.
Definition BOOST_METAPARSE_V1_CPP11_ONE_CHAR_EXCEPT_HPP : macro := 291%positive.
Definition BOOST_METAPARSE_V1_CPP98_IMPL_ONE_CHAR_EXCEPT_NOT_USED_HPP : macro := 292%positive.
Definition BOOST_METAPARSE_V1_CPP98_ONE_CHAR_EXCEPT_HPP : macro := 293%positive.
Definition BOOST_METAPARSE_V1_ONE_CHAR_EXCEPT_HPP : macro := 294%positive.
Definition BOOST_METAPARSE_ONE_CHAR_EXCEPT_HPP : macro := 295%positive.
Definition BOOST_METAPARSE_ONE_CHAR_HPP : macro := 296%positive.
Definition BOOST_METAPARSE_V1_CPP14_IMPL_ANY_OF_C_HPP : macro := 297%positive.
Definition BOOST_METAPARSE_V1_CPP14_ONE_OF_C_HPP : macro := 298%positive.
Definition BOOST_METAPARSE_V1_CPP11_OR_C_HPP : macro := 299%positive.
Definition BOOST_METAPARSE_V1_CPP11_IMPL_ANY_OF_C_HPP : macro := 300%positive.
Definition BOOST_METAPARSE_V1_CPP11_ONE_OF_C_HPP : macro := 301%positive.
Definition BOOST_METAPARSE_V1_CPP98_ONE_OF_C_HPP : macro := 302%positive.
Definition BOOST_NO_SCALAR_VALUE : macro := 303%positive.
Definition BOOST_METAPARSE_ONE_OF_C_LIT : macro := 304%positive.
Definition BOOST_METAPARSE_ONE_OF_C_CASE : macro := 305%positive.
Definition BOOST_METAPARSE_V1_ONE_OF_C_HPP : macro := 306%positive.
Definition BOOST_METAPARSE_ONE_OF_C_HPP : macro := 307%positive.
Definition BOOST_METAPARSE_ONE_OF_HPP : macro := 308%positive.
Definition BOOST_METAPARSE_V1_OPTIONAL_HPP : macro := 309%positive.
Definition BOOST_METAPARSE_OPTIONAL_HPP : macro := 310%positive.
Definition BOOST_METAPARSE_V1_RANGE_C_HPP : macro := 311%positive.
Definition BOOST_METAPARSE_RANGE_C_HPP : macro := 312%positive.
Definition BOOST_METAPARSE_V1_RANGE_HPP : macro := 313%positive.
Definition BOOST_METAPARSE_RANGE_HPP : macro := 314%positive.
Definition BOOST_METAPARSE_REJECT_HPP : macro := 315%positive.
Definition BOOST_METAPARSE_RETURN__HPP : macro := 316%positive.
Definition BOOST_METAPARSE_SEQUENCE_HPP : macro := 317%positive.
Definition BOOST_METAPARSE_V1_SEQUENCE_APPLY_HPP : macro := 318%positive.
Definition BOOST_METAPARSE_SEQUENCE_APPLY_ARG : macro := 319%positive.
Definition BOOST_METAPARSE_SEQUENCE_APPLY : macro := 320%positive.
Definition BOOST_METAPARSE_SEQUENCE_APPLY_HPP : macro := 321%positive.
Definition BOOST_METAPARSE_USING : macro := 322%positive.
Definition BOOST_METAPARSE_SOURCE_POSITION_HPP : macro := 323%positive.
Definition BOOST_METAPARSE_SOURCE_POSITION_TAG_HPP : macro := 324%positive.
Definition BOOST_METAPARSE_SPACE_HPP : macro := 325%positive.
Definition BOOST_METAPARSE_V1_SPACES_HPP : macro := 326%positive.
Definition BOOST_METAPARSE_SPACES_HPP : macro := 327%positive.
Definition BOOST_METAPARSE_START_HPP : macro := 328%positive.
Definition BOOST_METAPARSE_STRING_TAG_HPP : macro := 329%positive.
Definition BOOST_METAPARSE_STRING_HPP : macro := 330%positive.
Definition BOOST_METAPARSE_STRING : macro := 331%positive.
Definition BOOST_METAPARSE_TOKEN_HPP : macro := 332%positive.
Definition BOOST_METAPARSE_V1_TRANSFORM_ERROR_HPP : macro := 333%positive.
Definition BOOST_METAPARSE_TRANSFORM_ERROR_HPP : macro := 334%positive.
Definition BOOST_METAPARSE_TRANSFORM_ERROR_MESSAGE_HPP : macro := 335%positive.
Definition BOOST_METAPARSE_TRANSFORM_HPP : macro := 336%positive.
Definition BOOST_METAPARSE_UTIL_UNLESS_ERROR_HPP : macro := 337%positive.
Definition BOOST_METAPARSE_UTIL_DIGIT_TO_INT_C_HPP : macro := 338%positive.
Definition BOOST_METAPARSE_UTIL_DIGIT_TO_INT_HPP : macro := 339%positive.
Definition BOOST_METAPARSE_UTIL_IN_RANGE_C_HPP : macro := 340%positive.
Definition BOOST_METAPARSE_V1_UTIL_IN_RANGE_HPP : macro := 341%positive.
Definition BOOST_METAPARSE_UTIL_IN_RANGE_HPP : macro := 342%positive.
Definition BOOST_METAPARSE_V1_UTIL_INT_TO_DIGIT_C_HPP : macro := 343%positive.
Definition BOOST_METAPARSE_UTIL_INT_TO_DIGIT_C_HPP : macro := 344%positive.
Definition BOOST_METAPARSE_V1_UTIL_INT_TO_DIGIT_HPP : macro := 345%positive.
Definition BOOST_METAPARSE_UTIL_INT_TO_DIGIT_HPP : macro := 346%positive.
Definition BOOST_METAPARSE_UTIL_IS_DIGIT_HPP : macro := 347%positive.
Definition BOOST_METAPARSE_UTIL_IS_LCASE_LETTER_HPP : macro := 348%positive.
Definition BOOST_METAPARSE_UTIL_IS_LETTER_HPP : macro := 349%positive.
Definition BOOST_METAPARSE_UTIL_IS_UCASE_LETTER_HPP : macro := 350%positive.
Definition BOOST_METAPARSE_UTIL_IS_WHITESPACE_C_HPP : macro := 351%positive.
Definition BOOST_METAPARSE_UTIL_IS_WHITESPACE_HPP : macro := 352%positive.
Definition BOOST_METAPARSE_VERSION_HPP : macro := 353%positive.
Definition BOOST_METAPARSE_VERSION : macro := 354%positive.
Definition BOOST_METAPARSE_V1_STRING_VALUE_HPP : macro := 355%positive.
Definition BOOST_METAPARSE_V1_STRING_VALUE : macro := 356%positive.
Definition BOOST_METAPARSE_STRING_VALUE_HPP : macro := 357%positive.
Definition BOOST_METAPARSE_STRING_VALUE : macro := 358%positive.
Definition BOOST_METAPARSE_V1_FWD_STRING_HPP : macro := 359%positive.
Definition BOOST_METAPARSE_V1_IMPL_ASSERT_STRING_LENGTH_HPP : macro := 360%positive.
Definition BOOST_METAPARSE_V1_IMPL_HAS_TYPE_HPP : macro := 361%positive.
Definition BOOST_METAPARSE_V1_IMPL_RETURNS_HPP : macro := 362%positive.
Definition BOOST_METAPARSE_V1_SWAP_HPP : macro := 363%positive.

(** ** The names *)
Definition n_accept : name := 1%positive.
Definition n_accept_tag : name := 2%positive.
Definition n_accept_when : name := 3%positive.
Definition n_alphanum : name := 4%positive.
Definition n_always : name := 5%positive.
Definition n_always_c : name := 6%positive.
Definition n_build_parser : name := 7%positive.
Definition n_change_error_message : name := 8%positive.
Definition n_debug_parsing_error : name := 9%positive.
Definition n_digit : name := 10%positive.
Definition n_digit_val : name := 11%positive.
Definition n_empty : name := 12%positive.
Definition n_entire_input : name := 13%positive.
Definition n_except : name := 14%positive.
Definition n_fail : name := 15%positive.
Definition n_fail_at_first_char_expected : name := 16%positive.
Definition n_fail_tag : name := 17%positive.
Definition n_first_of : name := 18%positive.
Definition n_foldl : name := 19%positive.
Definition n_foldl1 : name := 20%positive.
Definition n_foldl_reject_incomplete : name := 21%positive.
Definition n_foldl_reject_incomplete1 : name := 22%positive.
Definition n_foldl_reject_incomplete_start_with_parser : name := 23%positive.
Definition n_foldl_start_with_parser : name := 24%positive.
Definition n_foldr : name := 25%positive.
Definition n_foldr1 : name := 26%positive.
Definition n_foldr_reject_incomplete : name := 27%positive.
Definition n_foldr_reject_incomplete1 : name := 28%positive.
Definition n_foldr_start_with_parser : name := 29%positive.
Definition n_get_col : name := 30%positive.
Definition n_get_line : name := 31%positive.
Definition n_get_message : name := 32%positive.
Definition n_get_position : name := 33%positive.
Definition n_get_prev_char : name := 34%positive.
Definition n_get_remaining : name := 35%positive.
Definition n_get_result : name := 36%positive.
Definition n_grammar : name := 37%positive.
Definition n_if_ : name := 38%positive.
Definition n_int_ : name := 39%positive.
Definition n_is_error : name := 40%positive.
Definition n_iterate : name := 41%positive.
Definition n_iterate_c : name := 42%positive.
Definition n_keyword : name := 43%positive.
Definition n_last_of : name := 44%positive.
Definition n_letter : name := 45%positive.
Definition n_lit : name := 46%positive.
Definition n_lit_c : name := 47%positive.
Definition n_look_ahead : name := 48%positive.
Definition n_middle_of : name := 49%positive.
Definition n_next_char : name := 50%positive.
Definition n_next_line : name := 51%positive.
Definition n_nth_of : name := 52%positive.
Definition n_nth_of_c : name := 53%positive.
Definition n_one_char : name := 54%positive.
Definition n_one_char_except : name := 55%positive.
Definition n_one_char_except_c : name := 56%positive.
Definition n_one_of : name := 57%positive.
Definition n_one_of_c : name := 58%positive.
Definition n_optional : name := 59%positive.
Definition n_range : name := 60%positive.
Definition n_range_c : name := 61%positive.
Definition n_reject : name := 62%positive.
Definition n_repeated : name := 63%positive.
Definition n_repeated1 : name := 64%positive.
Definition n_repeated_one_of : name := 65%positive.
Definition n_repeated_one_of1 : name := 66%positive.
Definition n_repeated_reject_incomplete : name := 67%positive.
Definition n_repeated_reject_incomplete1 : name := 68%positive.
Definition n_return_ : name := 69%positive.
Definition n_sequence : name := 70%positive.
Definition n_sequence_apply_N : name := 71%positive.
Definition n_source_position : name := 72%positive.
Definition n_source_position_tag : name := 73%positive.
Definition n_space : name := 74%positive.
Definition n_spaces : name := 75%positive.
Definition n_start : name := 76%positive.
Definition n_string : name := 77%positive.
Definition n_string_tag : name := 78%positive.
Definition n_token : name := 79%positive.
Definition n_transform : name := 80%positive.
Definition n_transform_error : name := 81%positive.
Definition n_transform_error_message : name := 82%positive.
Definition n_unless_error : name := 83%positive.
Definition n_error_digit_expected : name := 84%positive.
Definition n_error_end_of_input_expected : name := 85%positive.
Definition n_error_index_out_of_range : name := 86%positive.
Definition n_error_letter_expected : name := 87%positive.
Definition n_error_literal_expected : name := 88%positive.
Definition n_error_none_of_the_expected_cases_found : name := 89%positive.
Definition n_error_unexpected_character : name := 90%positive.
Definition n_error_unexpected_end_of_input : name := 91%positive.
Definition n_error_unpaired : name := 92%positive.
Definition n_error_whitespace_expected : name := 93%positive.
Definition n_util_digit_to_int : name := 94%positive.
Definition n_util_digit_to_int_c : name := 95%positive.
Definition n_util_in_range : name := 96%positive.
Definition n_util_in_range_c : name := 97%positive.
Definition n_util_int_to_digit : name := 98%positive.
Definition n_util_int_to_digit_c : name := 99%positive.
Definition n_util_is_digit : name := 100%positive.
Definition n_util_is_lcase_letter : name := 101%positive.
Definition n_util_is_letter : name := 102%positive.
Definition n_util_is_ucase_letter : name := 103%positive.
Definition n_util_is_whitespace : name := 104%positive.
Definition n_util_is_whitespace_c : name := 105%positive.
Definition n_v1_accept : name := 106%positive.
Definition n_v1_accept_tag : name := 107%positive.
Definition n_v1_accept_when : name := 108%positive.
Definition n_v1_alphanum : name := 109%positive.
Definition n_v1_always : name := 110%positive.
Definition n_v1_always_c : name := 111%positive.
Definition n_v1_build_parser : name := 112%positive.
Definition n_v1_change_error_message : name := 113%positive.
Definition n_v1_debug_parsing_error : name := 114%positive.
Definition n_v1_digit : name := 115%positive.
Definition n_v1_digit_val : name := 116%positive.
Definition n_v1_empty : name := 117%positive.
Definition n_v1_entire_input : name := 118%positive.
Definition n_v1_except : name := 119%positive.
Definition n_v1_fail : name := 120%positive.
Definition n_v1_fail_at_first_char_expected : name := 121%positive.
Definition n_v1_fail_tag : name := 122%positive.
Definition n_v1_first_of : name := 123%positive.
Definition n_v1_foldl : name := 124%positive.
Definition n_v1_foldl1 : name := 125%positive.
Definition n_v1_foldl_reject_incomplete : name := 126%positive.
Definition n_v1_foldl_reject_incomplete1 : name := 127%positive.
Definition n_v1_foldl_reject_incomplete_start_with_parser : name := 128%positive.
Definition n_v1_foldl_start_with_parser : name := 129%positive.
Definition n_v1_foldr : name := 130%positive.
Definition n_v1_foldr1 : name := 131%positive.
Definition n_v1_foldr_reject_incomplete : name := 132%positive.
Definition n_v1_foldr_reject_incomplete1 : name := 133%positive.
Definition n_v1_foldr_start_with_parser : name := 134%positive.
Definition n_v1_get_col : name := 135%positive.
Definition n_v1_get_col_impl : name := 136%positive.
Definition n_v1_get_line : name := 137%positive.
Definition n_v1_get_line_impl : name := 138%positive.
Definition n_v1_get_message : name := 139%positive.
Definition n_v1_get_message_impl : name := 140%positive.
Definition n_v1_get_position : name := 141%positive.
Definition n_v1_get_position_impl : name := 142%positive.
Definition n_v1_get_prev_char : name := 143%positive.
Definition n_v1_get_prev_char_impl : name := 144%positive.
Definition n_v1_get_remaining : name := 145%positive.
Definition n_v1_get_remaining_impl : name := 146%positive.
Definition n_v1_get_result : name := 147%positive.
Definition n_v1_get_result_impl : name := 148%positive.
Definition n_v1_grammar : name := 149%positive.
Definition n_v1_if_ : name := 150%positive.
Definition n_v1_int_ : name := 151%positive.
Definition n_v1_is_error : name := 152%positive.
Definition n_v1_iterate : name := 153%positive.
Definition n_v1_iterate_c : name := 154%positive.
Definition n_v1_keyword : name := 155%positive.
Definition n_v1_last_of : name := 156%positive.
Definition n_v1_letter : name := 157%positive.
Definition n_v1_lit : name := 158%positive.
Definition n_v1_lit_c : name := 159%positive.
Definition n_v1_look_ahead : name := 160%positive.
Definition n_v1_middle_of : name := 161%positive.
Definition n_v1_next_char : name := 162%positive.
Definition n_v1_next_char_impl : name := 163%positive.
Definition n_v1_next_line : name := 164%positive.
Definition n_v1_next_line_impl : name := 165%positive.
Definition n_v1_nth_of : name := 166%positive.
Definition n_v1_nth_of_c : name := 167%positive.
Definition n_v1_one_char : name := 168%positive.
Definition n_v1_one_char_except : name := 169%positive.
Definition n_v1_one_char_except_c : name := 170%positive.
Definition n_v1_one_of : name := 171%positive.
Definition n_v1_one_of_c : name := 172%positive.
Definition n_v1_optional : name := 173%positive.
Definition n_v1_parsing_failed : name := 174%positive.
Definition n_v1_range : name := 175%positive.
Definition n_v1_range_c : name := 176%positive.
Definition n_v1_reject : name := 177%positive.
Definition n_v1_repeated : name := 178%positive.
Definition n_v1_repeated1 : name := 179%positive.
Definition n_v1_repeated_one_of : name := 180%positive.
Definition n_v1_repeated_one_of1 : name := 181%positive.
Definition n_v1_repeated_reject_incomplete : name := 182%positive.
Definition n_v1_repeated_reject_incomplete1 : name := 183%positive.
Definition n_v1_return_ : name := 184%positive.
Definition n_v1_sequence : name := 185%positive.
Definition n_v1_sequence_apply_N : name := 186%positive.
Definition n_v1_source_position : name := 187%positive.
Definition n_v1_source_position_tag : name := 188%positive.
Definition n_v1_space : name := 189%positive.
Definition n_v1_spaces : name := 190%positive.
Definition n_v1_start : name := 191%positive.
Definition n_v1_string : name := 192%positive.
Definition n_v1_string_tag : name := 193%positive.
Definition n_v1_swap : name := 194%positive.
Definition n_v1_token : name := 195%positive.
Definition n_v1_transform : name := 196%positive.
Definition n_v1_transform_error : name := 197%positive.
Definition n_v1_transform_error_message : name := 198%positive.
Definition n_v1_unless_error : name := 199%positive.
Definition n_v1_x__________________PARSING_FAILED__________________x : name := 200%positive.
Definition n_v1_error_digit_expected : name := 201%positive.
Definition n_v1_error_end_of_input_expected : name := 202%positive.
Definition n_v1_error_expected_to_fail : name := 203%positive.
Definition n_v1_error_index_out_of_range : name := 204%positive.
Definition n_v1_error_letter_expected : name := 205%positive.
Definition n_v1_error_literal_expected : name := 206%positive.
Definition n_v1_error_none_of_the_expected_cases_found : name := 207%positive.
Definition n_v1_error_unexpected_character : name := 208%positive.
Definition n_v1_error_unexpected_end_of_input : name := 209%positive.
Definition n_v1_error_unpaired : name := 210%positive.
Definition n_v1_error_whitespace_expected : name := 211%positive.
Definition n_v1_grammar_util_add_import : name := 212%positive.
Definition n_v1_grammar_util_add_rule : name := 213%positive.
Definition n_v1_grammar_util_bracket_expression : name := 214%positive.
Definition n_v1_grammar_util_build_char : name := 215%positive.
Definition n_v1_grammar_util_build_name : name := 216%positive.
Definition n_v1_grammar_util_build_native_parser : name := 217%positive.
Definition n_v1_grammar_util_build_parsed_parser : name := 218%positive.
Definition n_v1_grammar_util_build_repeated : name := 219%positive.
Definition n_v1_grammar_util_build_selection : name := 220%positive.
Definition n_v1_grammar_util_build_sequence : name := 221%positive.
Definition n_v1_grammar_util_char_token : name := 222%positive.
Definition n_v1_grammar_util_close_bracket_token : name := 223%positive.
Definition n_v1_grammar_util_define_token : name := 224%positive.
Definition n_v1_grammar_util_expression : name := 225%positive.
Definition n_v1_grammar_util_get_parser : name := 226%positive.
Definition n_v1_grammar_util_grammar_builder : name := 227%positive.
Definition n_v1_grammar_util_name_expression : name := 228%positive.
Definition n_v1_grammar_util_name_parser : name := 229%positive.
Definition n_v1_grammar_util_name_token : name := 230%positive.
Definition n_v1_grammar_util_no_action : name := 231%positive.
Definition n_v1_grammar_util_open_bracket_token : name := 232%positive.
Definition n_v1_grammar_util_or_token : name := 233%positive.
Definition n_v1_grammar_util_parser_parser : name := 234%positive.
Definition n_v1_grammar_util_rebuild : name := 235%positive.
Definition n_v1_grammar_util_repeated1_token : name := 236%positive.
Definition n_v1_grammar_util_repeated_apply_impl : name := 237%positive.
Definition n_v1_grammar_util_repeated_expression : name := 238%positive.
Definition n_v1_grammar_util_repeated_token : name := 239%positive.
Definition n_v1_grammar_util_rule_definition : name := 240%positive.
Definition n_v1_grammar_util_seq_expression : name := 241%positive.
Definition n_v1_impl_advance_c : name := 242%positive.
Definition n_v1_impl_any_of_c : name := 243%positive.
Definition n_v1_impl_apply_parser : name := 244%positive.
Definition n_v1_impl_assert_string_length : name := 245%positive.
Definition n_v1_impl_at_c : name := 246%positive.
Definition n_v1_impl_back_inserter : name := 247%positive.
Definition n_v1_impl_concat : name := 248%positive.
Definition n_v1_impl_distance : name := 249%positive.
Definition n_v1_impl_empty_string : name := 250%positive.
Definition n_v1_impl_eval_later_result : name := 251%positive.
Definition n_v1_impl_front_inserter : name := 252%positive.
Definition n_v1_impl_is_char_c : name := 253%positive.
Definition n_v1_impl_is_none_N : name := 254%positive.
Definition n_v1_impl_is_none0 : name := 255%positive.
Definition n_v1_impl_is_none_c : name := 256%positive.
Definition n_v1_impl_is_none_c_impl : name := 257%positive.
Definition n_v1_impl_iterate_impl : name := 258%positive.
Definition n_v1_impl_iterate_impl_unchecked : name := 259%positive.
Definition n_v1_impl_later_result : name := 260%positive.
Definition n_v1_impl_make_string : name := 261%positive.
Definition n_v1_impl_next_digit : name := 262%positive.
Definition n_v1_impl_nth_of_c : name := 263%positive.
Definition n_v1_impl_nth_of_c_N : name := 264%positive.
Definition n_v1_impl_nth_of_c_impl : name := 265%positive.
Definition n_v1_impl_nth_of_c_skip_remaining : name := 266%positive.
Definition n_v1_impl_one_char_except_not_used : name := 267%positive.
Definition n_v1_impl_one_of : name := 268%positive.
Definition n_v1_impl_one_of_fwd_op : name := 269%positive.
Definition n_v1_impl_or_c : name := 270%positive.
Definition n_v1_impl_pop_back : name := 271%positive.
Definition n_v1_impl_pop_front : name := 272%positive.
Definition n_v1_impl_push_back_c : name := 273%positive.
Definition n_v1_impl_push_front_c : name := 274%positive.
Definition n_v1_impl_push_front_result : name := 275%positive.
Definition n_v1_impl_returns : name := 276%positive.
Definition n_v1_impl_sequence_N : name := 277%positive.
Definition n_v1_impl_sequence_apply_transform_N : name := 278%positive.
Definition n_v1_impl_sequence_impl : name := 279%positive.
Definition n_v1_impl_size : name := 280%positive.
Definition n_v1_impl_skip_seq : name := 281%positive.
Definition n_v1_impl_string_at : name := 282%positive.
Definition n_v1_impl_string_iterator : name := 283%positive.
Definition n_v1_impl_string_iterator_tag : name := 284%positive.
Definition n_v1_impl_take : name := 285%positive.
Definition n_v1_impl_update_c : name := 286%positive.
Definition n_v1_impl_void_ : name := 287%positive.
Definition n_v1_util_digit_to_int : name := 288%positive.
Definition n_v1_util_digit_to_int_c : name := 289%positive.
Definition n_v1_util_in_range : name := 290%positive.
Definition n_v1_util_in_range_c : name := 291%positive.
Definition n_v1_util_int_to_digit : name := 292%positive.
Definition n_v1_util_int_to_digit_c : name := 293%positive.
Definition n_v1_util_is_digit : name := 294%positive.
Definition n_v1_util_is_lcase_letter : name := 295%positive.
Definition n_v1_util_is_letter : name := 296%positive.
Definition n_v1_util_is_ucase_letter : name := 297%positive.
Definition n_v1_util_is_whitespace : name := 298%positive.
Definition n_v1_util_is_whitespace_c : name := 299%positive.

(** ** The files *)
Definition h_v1_fwd_accept : file := 0%nat.
Definition h_v1_fwd_get_remaining : file := 1%nat.
Definition h_v1_fwd_get_position : file := 2%nat.
Definition h_v1_fwd_get_result : file := 3%nat.
Definition h_v1_accept_tag : file := 4%nat.
Definition h_v1_accept : file := 5%nat.
Definition h_accept : file := 6%nat.
Definition h_accept_tag : file := 7%nat.
Definition h_v1_get_result : file := 8%nat.
Definition h_v1_fwd_reject : file := 9%nat.
Definition h_v1_fwd_get_message : file := 10%nat.
Definition h_v1_fail_tag : file := 11%nat.
Definition h_v1_reject : file := 12%nat.
Definition h_v1_is_error : file := 13%nat.
Definition h_v1_accept_when : file := 14%nat.
Definition h_accept_when : file := 15%nat.
Definition h_config : file := 16%nat.
Definition h_v1_fail : file := 17%nat.
Definition h_v1_get_position : file := 18%nat.
Definition h_v1_cpp11_impl_eval_later_result : file := 19%nat.
Definition h_v1_define_error : file := 20%nat.
Definition h_v1_error_none_of_the_expected_cases_found : file := 21%nat.
Definition h_v1_cpp11_one_of : file := 22%nat.
Definition h_v1_cpp98_impl_later_result : file := 23%nat.
Definition h_v1_cpp98_impl_one_of_fwd_op : file := 24%nat.
Definition h_v1_cpp98_impl_one_of : file := 25%nat.
Definition h_limit_one_of_size : file := 26%nat.
Definition h_v1_cpp98_one_of : file := 27%nat.
Definition h_v1_one_of : file := 28%nat.
Definition h_v1_error_digit_expected : file := 29%nat.
Definition h_v1_error_unexpected_end_of_input : file := 30%nat.
Definition h_v1_fwd_next_char : file := 31%nat.
Definition h_v1_next_char : file := 32%nat.
Definition h_v1_fwd_next_line : file := 33%nat.
Definition h_v1_next_line : file := 34%nat.
Definition h_v1_fwd_get_prev_char : file := 35%nat.
Definition h_v1_get_prev_char : file := 36%nat.
Definition h_v1_one_char : file := 37%nat.
Definition h_v1_change_error_message : file := 38%nat.
Definition h_v1_util_in_range_c : file := 39%nat.
Definition h_v1_util_is_digit : file := 40%nat.
Definition h_v1_digit : file := 41%nat.
Definition h_v1_error_letter_expected : file := 42%nat.
Definition h_v1_util_is_ucase_letter : file := 43%nat.
Definition h_v1_util_is_lcase_letter : file := 44%nat.
Definition h_v1_util_is_letter : file := 45%nat.
Definition h_v1_letter : file := 46%nat.
Definition h_v1_alphanum : file := 47%nat.
Definition h_alphanum : file := 48%nat.
Definition h_v1_get_remaining : file := 49%nat.
Definition h_v1_always : file := 50%nat.
Definition h_v1_error_literal_expected : file := 51%nat.
Definition h_v1_impl_is_char_c : file := 52%nat.
Definition h_v1_lit_c : file := 53%nat.
Definition h_v1_always_c : file := 54%nat.
Definition h_always_c : file := 55%nat.
Definition h_always : file := 56%nat.
Definition h_v1_foldl : file := 57%nat.
Definition h_v1_impl_back_inserter : file := 58%nat.
Definition h_v1_repeated : file := 59%nat.
Definition h_repeated : file := 60%nat.
Definition h_v1_foldl1 : file := 61%nat.
Definition h_v1_repeated1 : file := 62%nat.
Definition h_repeated1 : file := 63%nat.
Definition h_v1_impl_void_ : file := 64%nat.
Definition h_v1_error_expected_to_fail : file := 65%nat.
Definition h_v1_fail_at_first_char_expected : file := 66%nat.
Definition h_v1_foldl_reject_incomplete : file := 67%nat.
Definition h_v1_foldl_reject_incomplete1 : file := 68%nat.
Definition h_v1_repeated_reject_incomplete1 : file := 69%nat.
Definition h_repeated_reject_incomplete1 : file := 70%nat.
Definition h_v1_repeated_reject_incomplete : file := 71%nat.
Definition h_repeated_reject_incomplete : file := 72%nat.
Definition h_v1_cpp11_repeated_one_of1 : file := 73%nat.
Definition h_v1_cpp98_repeated_one_of1 : file := 74%nat.
Definition h_v1_repeated_one_of1 : file := 75%nat.
Definition h_repeated_one_of1 : file := 76%nat.
Definition h_v1_cpp11_repeated_one_of : file := 77%nat.
Definition h_v1_cpp98_repeated_one_of : file := 78%nat.
Definition h_v1_repeated_one_of : file := 79%nat.
Definition h_repeated_one_of : file := 80%nat.
Definition h_v1_fwd_build_parser : file := 81%nat.
Definition h_v1_fwd_source_position : file := 82%nat.
Definition h_v1_fwd_get_col : file := 83%nat.
Definition h_v1_get_col : file := 84%nat.
Definition h_v1_fwd_get_line : file := 85%nat.
Definition h_v1_get_line : file := 86%nat.
Definition h_v1_source_position_tag : file := 87%nat.
Definition h_v1_source_position : file := 88%nat.
Definition h_v1_start : file := 89%nat.
Definition h_v1_get_message : file := 90%nat.
Definition h_v1_build_parser : file := 91%nat.
Definition h_build_parser : file := 92%nat.
Definition h_change_error_message : file := 93%nat.
Definition h_v1_debug_parsing_error : file := 94%nat.
Definition h_debug_parsing_error : file := 95%nat.
Definition h_define_error : file := 96%nat.
Definition h_digit : file := 97%nat.
Definition h_v1_unless_error : file := 98%nat.
Definition h_v1_transform : file := 99%nat.
Definition h_v1_util_digit_to_int_c : file := 100%nat.
Definition h_v1_util_digit_to_int : file := 101%nat.
Definition h_v1_digit_val : file := 102%nat.
Definition h_digit_val : file := 103%nat.
Definition h_v1_error_end_of_input_expected : file := 104%nat.
Definition h_v1_empty : file := 105%nat.
Definition h_empty : file := 106%nat.
Definition h_v1_return_ : file := 107%nat.
Definition h_v1_cpp11_impl_nth_of_c_skip_remaining : file := 108%nat.
Definition h_v1_cpp11_impl_nth_of_c : file := 109%nat.
Definition h_v1_error_index_out_of_range : file := 110%nat.
Definition h_v1_cpp11_first_of : file := 111%nat.
Definition h_v1_cpp98_impl_skip_seq : file := 112%nat.
Definition h_v1_cpp98_impl_nth_of_c_impl : file := 113%nat.
Definition h_limit_sequence_size : file := 114%nat.
Definition h_v1_cpp98_impl_nth_of_c : file := 115%nat.
Definition h_v1_cpp98_nth_of_c : file := 116%nat.
Definition h_v1_cpp98_first_of : file := 117%nat.
Definition h_v1_first_of : file := 118%nat.
Definition h_v1_entire_input : file := 119%nat.
Definition h_entire_input : file := 120%nat.
Definition h_error_digit_expected : file := 121%nat.
Definition h_error_end_of_input_expected : file := 122%nat.
Definition h_error_index_out_of_range : file := 123%nat.
Definition h_error_letter_expected : file := 124%nat.
Definition h_error_literal_expected : file := 125%nat.
Definition h_error_none_of_the_expected_cases_found : file := 126%nat.
Definition h_v1_error_unexpected_character : file := 127%nat.
Definition h_error_unexpected_character : file := 128%nat.
Definition h_error_unexpected_end_of_input : file := 129%nat.
Definition h_v1_error_unpaired : file := 130%nat.
Definition h_error_unpaired : file := 131%nat.
Definition h_v1_error_whitespace_expected : file := 132%nat.
Definition h_error_whitespace_expected : file := 133%nat.
Definition h_v1_except : file := 134%nat.
Definition h_except : file := 135%nat.
Definition h_fail_at_first_char_expected : file := 136%nat.
Definition h_fail : file := 137%nat.
Definition h_fail_tag : file := 138%nat.
Definition h_first_of : file := 139%nat.
Definition h_foldl1 : file := 140%nat.
Definition h_foldl_reject_incomplete : file := 141%nat.
Definition h_foldl_reject_incomplete1 : file := 142%nat.
Definition h_v1_foldl_reject_incomplete_start_with_parser : file := 143%nat.
Definition h_foldl_reject_incomplete_start_with_parser : file := 144%nat.
Definition h_foldl : file := 145%nat.
Definition h_v1_foldl_start_with_parser : file := 146%nat.
Definition h_foldl_start_with_parser : file := 147%nat.
Definition h_v1_foldr_start_with_parser : file := 148%nat.
Definition h_v1_foldr : file := 149%nat.
Definition h_v1_foldr1 : file := 150%nat.
Definition h_foldr1 : file := 151%nat.
Definition h_v1_foldr_reject_incomplete : file := 152%nat.
Definition h_foldr_reject_incomplete : file := 153%nat.
Definition h_v1_foldr_reject_incomplete1 : file := 154%nat.
Definition h_foldr_reject_incomplete1 : file := 155%nat.
Definition h_foldr : file := 156%nat.
Definition h_foldr_start_with_parser : file := 157%nat.
Definition h_get_col : file := 158%nat.
Definition h_get_line : file := 159%nat.
Definition h_get_message : file := 160%nat.
Definition h_get_position : file := 161%nat.
Definition h_get_prev_char : file := 162%nat.
Definition h_get_remaining : file := 163%nat.
Definition h_get_result : file := 164%nat.
Definition h_v1_cpp11_impl_push_front_result : file := 165%nat.
Definition h_v1_cpp11_sequence : file := 166%nat.
Definition h_v1_impl_apply_parser : file := 167%nat.
Definition h_v1_cpp98_impl_sequence_impl : file := 168%nat.
Definition h_v1_cpp98_impl_sequence : file := 169%nat.
Definition h_v1_cpp98_sequence : file := 170%nat.
Definition h_v1_sequence : file := 171%nat.
Definition h_v1_lit : file := 172%nat.
Definition h_v1_util_is_whitespace_c : file := 173%nat.
Definition h_v1_util_is_whitespace : file := 174%nat.
Definition h_v1_space : file := 175%nat.
Definition h_v1_token : file := 176%nat.
Definition h_v1_keyword : file := 177%nat.
Definition h_v1_cpp11_nth_of_c : file := 178%nat.
Definition h_v1_nth_of_c : file := 179%nat.
Definition h_v1_cpp11_nth_of : file := 180%nat.
Definition h_v1_cpp98_nth_of : file := 181%nat.
Definition h_v1_nth_of : file := 182%nat.
Definition h_v1_transform_error_message : file := 183%nat.
Definition h_v1_middle_of : file := 184%nat.
Definition h_v1_cpp11_last_of : file := 185%nat.
Definition h_v1_cpp98_last_of : file := 186%nat.
Definition h_v1_last_of : file := 187%nat.
Definition h_v1_cpp11_impl_is_none_c_impl : file := 188%nat.
Definition h_v1_cpp11_impl_is_none_c : file := 189%nat.
Definition h_v1_cpp11_one_char_except_c : file := 190%nat.
Definition h_limit_one_char_except_size : file := 191%nat.
Definition h_v1_cpp98_impl_is_none : file := 192%nat.
Definition h_v1_cpp98_one_char_except_c : file := 193%nat.
Definition h_v1_one_char_except_c : file := 194%nat.
Definition h_v1_cpp11_fwd_string : file := 195%nat.
Definition h_v1_string_tag : file := 196%nat.
Definition h_v1_impl_string_iterator_tag : file := 197%nat.
Definition h_v1_cpp11_impl_at_c : file := 198%nat.
Definition h_limit_string_size : file := 199%nat.
Definition h_v1_impl_no_char : file := 200%nat.
Definition h_v1_cpp98_fwd_string : file := 201%nat.
Definition h_v1_cpp98_impl_at_c : file := 202%nat.
Definition h_v1_impl_at_c : file := 203%nat.
Definition h_v1_impl_string_iterator : file := 204%nat.
Definition h_v1_cpp11_impl_empty_string : file := 205%nat.
Definition h_v1_cpp11_impl_size : file := 206%nat.
Definition h_v1_cpp11_impl_pop_front : file := 207%nat.
Definition h_v1_cpp11_impl_push_front_c : file := 208%nat.
Definition h_v1_cpp11_impl_push_back_c : file := 209%nat.
Definition h_v1_cpp11_impl_pop_back : file := 210%nat.
Definition h_v1_cpp11_impl_string_at : file := 211%nat.
Definition h_v1_cpp11_impl_concat : file := 212%nat.
Definition h_v1_cpp11_impl_string : file := 213%nat.
Definition h_v1_cpp11_string : file := 214%nat.
Definition h_v1_cpp98_impl_empty_string : file := 215%nat.
Definition h_v1_cpp98_impl_size : file := 216%nat.
Definition h_v1_cpp98_impl_pop_front : file := 217%nat.
Definition h_v1_cpp98_impl_push_front_c : file := 218%nat.
Definition h_v1_cpp98_impl_update_c : file := 219%nat.
Definition h_v1_cpp98_impl_push_back_c : file := 220%nat.
Definition h_v1_cpp98_impl_pop_back : file := 221%nat.
Definition h_v1_cpp98_string : file := 222%nat.
Definition h_v1_string : file := 223%nat.
Definition h_v1_impl_front_inserter : file := 224%nat.
Definition h_v1_grammar : file := 225%nat.
Definition h_grammar : file := 226%nat.
Definition h_v1_if_ : file := 227%nat.
Definition h_if_ : file := 228%nat.
Definition h_v1_impl_next_digit : file := 229%nat.
Definition h_v1_int_ : file := 230%nat.
Definition h_int_ : file := 231%nat.
Definition h_is_error : file := 232%nat.
Definition h_v1_impl_fwd_iterate_impl : file := 233%nat.
Definition h_v1_impl_iterate_impl_unchecked : file := 234%nat.
Definition h_v1_impl_iterate_impl : file := 235%nat.
Definition h_v1_iterate_c : file := 236%nat.
Definition h_iterate_c : file := 237%nat.
Definition h_v1_iterate : file := 238%nat.
Definition h_iterate : file := 239%nat.
Definition h_keyword : file := 240%nat.
Definition h_last_of : file := 241%nat.
Definition h_letter : file := 242%nat.
Definition h_lit_c : file := 243%nat.
Definition h_lit : file := 244%nat.
Definition h_v1_look_ahead : file := 245%nat.
Definition h_look_ahead : file := 246%nat.
Definition h_middle_of : file := 247%nat.
Definition h_next_char : file := 248%nat.
Definition h_next_line : file := 249%nat.
Definition h_nth_of_c : file := 250%nat.
Definition h_nth_of : file := 251%nat.
Definition h_one_char_except_c : file := 252%nat.
Definition h_v1_cpp11_one_char_except : file := 253%nat.
Definition h_v1_cpp98_impl_one_char_except_not_used : file := 254%nat.
Definition h_v1_cpp98_one_char_except : file := 255%nat.
Definition h_v1_one_char_except : file := 256%nat.
Definition h_one_char_except : file := 257%nat.
Definition h_one_char : file := 258%nat.
Definition h_v1_cpp14_impl_any_of_c : file := 259%nat.
Definition h_v1_cpp14_one_of_c : file := 260%nat.
Definition h_v1_cpp11_impl_or_c : file := 261%nat.
Definition h_v1_cpp11_impl_any_of_c : file := 262%nat.
Definition h_v1_cpp11_one_of_c : file := 263%nat.
Definition h_v1_cpp98_one_of_c : file := 264%nat.
Definition h_v1_one_of_c : file := 265%nat.
Definition h_one_of_c : file := 266%nat.
Definition h_one_of : file := 267%nat.
Definition h_v1_optional : file := 268%nat.
Definition h_optional : file := 269%nat.
Definition h_v1_range_c : file := 270%nat.
Definition h_range_c : file := 271%nat.
Definition h_v1_range : file := 272%nat.
Definition h_range : file := 273%nat.
Definition h_reject : file := 274%nat.
Definition h_return_ : file := 275%nat.
Definition h_sequence : file := 276%nat.
Definition h_v1_sequence_apply : file := 277%nat.
Definition h_sequence_apply : file := 278%nat.
Definition h_source_position : file := 279%nat.
Definition h_source_position_tag : file := 280%nat.
Definition h_space : file := 281%nat.
Definition h_v1_spaces : file := 282%nat.
Definition h_spaces : file := 283%nat.
Definition h_start : file := 284%nat.
Definition h_string_tag : file := 285%nat.
Definition h_string : file := 286%nat.
Definition h_token : file := 287%nat.
Definition h_v1_transform_error : file := 288%nat.
Definition h_transform_error : file := 289%nat.
Definition h_transform_error_message : file := 290%nat.
Definition h_transform : file := 291%nat.
Definition h_unless_error : file := 292%nat.
Definition h_util_digit_to_int_c : file := 293%nat.
Definition h_util_digit_to_int : file := 294%nat.
Definition h_util_in_range_c : file := 295%nat.
Definition h_v1_util_in_range : file := 296%nat.
Definition h_util_in_range : file := 297%nat.
Definition h_v1_util_int_to_digit_c : file := 298%nat.
Definition h_util_int_to_digit_c : file := 299%nat.
Definition h_v1_util_int_to_digit : file := 300%nat.
Definition h_util_int_to_digit : file := 301%nat.
Definition h_util_is_digit : file := 302%nat.
Definition h_util_is_lcase_letter : file := 303%nat.
Definition h_util_is_letter : file := 304%nat.
Definition h_util_is_ucase_letter : file := 305%nat.
Definition h_util_is_whitespace_c : file := 306%nat.
Definition h_util_is_whitespace : file := 307%nat.
Definition h_version : file := 308%nat.
Definition h_metaparse : file := 309%nat.
Definition h_v1_string_value : file := 310%nat.
Definition h_string_value : file := 311%nat.
Definition h_v1_fwd_string : file := 312%nat.
Definition h_v1_impl_assert_string_length : file := 313%nat.
Definition h_v1_impl_has_type : file := 314%nat.
Definition h_v1_impl_returns : file := 315%nat.
Definition h_v1_swap : file := 316%nat.

(** include/boost/metaparse/v1/fwd/accept.hpp:1-22 *)
Definition c_v1_fwd_accept : code :=
  If (Not (Defined BOOST_METAPARSE_V1_FWD_ACCEPT_HPP))
    (Define BOOST_METAPARSE_V1_FWD_ACCEPT_HPP 0 ;;
      Says (Declares n_v1_accept) ;;
      Done)
    (Done) Done.
(** include/boost/metaparse/v1/fwd/get_remaining.hpp:1-25 *)
Definition c_v1_fwd_get_remaining : code :=
  If (Not (Defined BOOST_METAPARSE_V1_FWD_GET_REMAINING_HPP))
    (Define BOOST_METAPARSE_V1_FWD_GET_REMAINING_HPP 0 ;;
      Says (Declares n_v1_get_remaining_impl) ;;
      Says (Declares n_v1_get_remaining) ;;
      Done)
    (Done) Done.
(** include/boost/metaparse/v1/fwd/get_position.hpp:1-25 *)
Definition c_v1_fwd_get_position : code :=
  If (Not (Defined BOOST_METAPARSE_V1_FWD_GET_POSITION_HPP))
    (Define BOOST_METAPARSE_V1_FWD_GET_POSITION_HPP 0 ;;
      Says (Declares n_v1_get_position_impl) ;;
      Says (Declares n_v1_get_position) ;;
      Done)
    (Done) Done.
(** include/boost/metaparse/v1/fwd/get_result.hpp:1-25 *)
Definition c_v1_fwd_get_result : code :=
  If (Not (Defined BOOST_METAPARSE_V1_FWD_GET_RESULT_HPP))
    (Define BOOST_METAPARSE_V1_FWD_GET_RESULT_HPP 0 ;;
      Says (Declares n_v1_get_result_impl) ;;
      Says (Declares n_v1_get_result) ;;
      Done)
    (Done) Done.
(** include/boost/metaparse/v1/accept_tag.hpp:1-47 *)
Definition c_v1_accept_tag : code :=
  If (Not (Defined BOOST_METAPARSE_V1_ACCEPT_TAG_HPP))
    (Define BOOST_METAPARSE_V1_ACCEPT_TAG_HPP 0 ;;
      Include h_v1_fwd_get_remaining ;;
      Include h_v1_fwd_get_position ;;
      Include h_v1_fwd_get_result ;;
      Says (Defines n_v1_accept_tag) ;;
      Says (Uses n_v1_accept_tag) ;;
      Says (Uses n_v1_get_position_impl) ;;
      Says (Uses n_v1_get_remaining_impl) ;;
      Says (Uses n_v1_get_result_impl) ;;
      Done)
    (Done) Done.
(** include/boost/metaparse/v1/accept.hpp:1-36 *)
Definition c_v1_accept : code :=
  If (Not (Defined BOOST_METAPARSE_V1_ACCEPT_HPP))
    (Define BOOST_METAPARSE_V1_ACCEPT_HPP 0 ;;
      Include h_v1_fwd_accept ;;
      Include h_v1_accept_tag ;;
      Says (Defines n_v1_accept) ;;
      Says (Uses n_v1_accept_tag) ;;
      Says (Uses n_v1_accept) ;;
      Done)
    (Done) Done.
(** include/boost/metaparse/accept.hpp:1-20 *)
Definition c_accept : code :=
  If (Not (Defined BOOST_METAPARSE_ACCEPT_HPP))
    (Define BOOST_METAPARSE_ACCEPT_HPP 0 ;;
      Include h_v1_accept ;;
      Says (Uses n_v1_accept) ;;
      Says (Declares n_accept) ;;
      Done)
    (Done) Done.
(** include/boost/metaparse/accept_tag.hpp:1-20 *)
Definition c_accept_tag : code :=
  If (Not (Defined BOOST_METAPARSE_ACCEPT_TAG_HPP))
    (Define BOOST_METAPARSE_ACCEPT_TAG_HPP 0 ;;
      Include h_v1_accept_tag ;;
      Says (Uses n_v1_accept_tag) ;;
      Says (Declares n_accept_tag) ;;
      Done)
    (Done) Done.
(** include/boost/metaparse/v1/get_result.hpp:1-29 *)
Definition c_v1_get_result : code :=
  If (Not (Defined BOOST_METAPARSE_V1_GET_RESULT_HPP))
    (Define BOOST_METAPARSE_V1_GET_RESULT_HPP 0 ;;
      Include h_v1_fwd_get_result ;;
      Says (Declares n_v1_get_result_impl) ;;
      Says (Defines n_v1_get_result) ;;
      Says (Uses n_v1_get_result_impl) ;;
      Done)
    (Done) Done.
(** include/boost/metaparse/v1/fwd/reject.hpp:1-22 *)
Definition c_v1_fwd_reject : code :=
  If (Not (Defined BOOST_METAPARSE_V1_FWD_REJECT_HPP))
    (Define BOOST_METAPARSE_V1_FWD_REJECT_HPP 0 ;;
      Says (Declares n_v1_reject) ;;
      Done)
    (Done) Done.
(** include/boost/metaparse/v1/fwd/get_message.hpp:1-25 *)
Definition c_v1_fwd_get_message : code :=
  If (Not (Defined BOOST_METAPARSE_V1_FWD_GET_MESSAGE_HPP))
    (Define BOOST_METAPARSE_V1_FWD_GET_MESSAGE_HPP 0 ;;
      Says (Declares n_v1_get_message_impl) ;;
      Says (Declares n_v1_get_message) ;;
      Done)
    (Done) Done.
(** include/boost/metaparse/v1/fail_tag.hpp:1-42 *)
Definition c_v1_fail_tag : code :=
  If (Not (Defined BOOST_METAPARSE_V1_FAIL_TAG_HPP))
    (Define BOOST_METAPARSE_V1_FAIL_TAG_HPP 0 ;;
      Include h_v1_fwd_get_message ;;
      Include h_v1_fwd_get_position ;;
      Says (Defines n_v1_fail_tag) ;;
      Says (Uses n_v1_fail_tag) ;;
      Says (Uses n_v1_get_message_impl) ;;
      Says (Uses n_v1_get_position_impl) ;;
      Done)
    (Done) Done.
(** include/boost/metaparse/v1/reject.hpp:1-33 *)
Definition c_v1_reject : code :=
  If (Not (Defined BOOST_METAPARSE_V1_REJECT_HPP))
    (Define BOOST_METAPARSE_V1_REJECT_HPP 0 ;;
      Include h_v1_fwd_reject ;;
      Include h_v1_fail_tag ;;
      Says (Defines n_v1_reject) ;;
      Says (Uses n_v1_fail_tag) ;;
      Says (Uses n_v1_reject) ;;
      Done)
    (Done) Done.
(** include/boost/metaparse/v1/is_error.hpp:1-43 *)
Definition c_v1_is_error : code :=
  If (Not (Defined BOOST_METAPARSE_V1_IS_ERROR_HPP))
    (Define BOOST_METAPARSE_V1_IS_ERROR_HPP 0 ;;
      Include h_v1_fail_tag ;;
      Says (Defines n_v1_is_error) ;;
      Says (Uses n_v1_fail_tag) ;;
      Says (Uses n_v1_is_error) ;;
      Done)
    (Done) Done.
(** include/boost/metaparse/v1/accept_when.hpp:1-59 *)
Definition c_v1_accept_when : code :=
  If (Not (Defined BOOST_METAPARSE_V1_ACCEPT_WHEN_HPP))
    (Define BOOST_METAPARSE_V1_ACCEPT_WHEN_HPP 0 ;;
      Include h_v1_get_result ;;
      Include h_v1_reject ;;
      Include h_v1_is_error ;;
      Says (Defines n_v1_accept_when) ;;
      Says (Uses n_v1_get_result) ;;
      Says (Uses n_v1_reject) ;;
      Says (Uses n_v1_accept_when) ;;
      Says (Uses n_v1_is_error) ;;
      Done)
    (Done) Done.
(** include/boost/metaparse/accept_when.hpp:1-20 *)
Definition c_accept_when : code :=
  If (Not (Defined BOOST_METAPARSE_ACCEPT_WHEN_HPP))
    (Define BOOST_METAPARSE_ACCEPT_WHEN_HPP 0 ;;
      Include h_v1_accept_when ;;
      Says (Uses n_v1_accept_when) ;;
      Says (Declares n_accept_when) ;;
      Done)
    (Done) Done.
(** include/boost/metaparse/config.hpp:1-71 *)
Definition c_config : code :=
  If (Not (Defined BOOST_METAPARSE_CONFIG_HPP))
    (Define BOOST_METAPARSE_CONFIG_HPP 0 ;;
      If (Or (Or (Defined BOOST_NO_CXX11_CONSTEXPR) (Defined BOOST_NO_CONSTEXPR)) (And (And (Not (Defined clang__)) (Defined GNUC__)) (Or (Below GNUC__ 4) (And (Equals GNUC__ 4) (Below GNUC_MINOR__ 7)))))
        (Define BOOST_NO_CONSTEXPR_C_STR 0 ;;
          Done)
        (Done)
      (If (Not (Defined BOOST_METAPARSE_STD))
        (If (And (And (And (Not (Defined BOOST_NO_CXX11_VARIADIC_TEMPLATES)) (Not (Defined BOOST_NO_VARIADIC_TEMPLATES))) (Or (And (Not (Defined BOOST_NO_CONSTEXPR)) (Not (Defined BOOST_NO_CXX11_CONSTEXPR))) (And (Defined MSC_VER) (AtLeast MSC_VER 1900)))) (Or (Not (Defined BOOST_GCC)) (AtLeast BOOST_GCC 40700)))
            (If (Not (Defined BOOST_NO_CXX14_CONSTEXPR))
                (Define BOOST_METAPARSE_STD 2014 ;;
                  Done)
                (Define BOOST_METAPARSE_STD 2011 ;;
                  Done) Done)
            (Define BOOST_METAPARSE_STD 1998 ;;
              Done) Done)
        (Done)
      (If (AtLeast BOOST_METAPARSE_STD 2011)
        (Define BOOST_METAPARSE_VARIADIC_STRING 0 ;;
          Done)
        (Done) Done)))
    (Done) Done.
(** include/boost/metaparse/v1/fail.hpp:1-30 *)
Definition c_v1_fail : code :=
  If (Not (Defined BOOST_METAPARSE_V1_FAIL_HPP))
    (Define BOOST_METAPARSE_V1_FAIL_HPP 0 ;;
      Include h_v1_reject ;;
      Says (Defines n_v1_fail) ;;
      Says (Uses n_v1_fail) ;;
      Says (Uses n_v1_reject) ;;
      Done)
    (Done) Done.
(** include/boost/metaparse/v1/get_position.hpp:1-29 *)
Definition c_v1_get_position : code :=
  If (Not (Defined BOOST_METAPARSE_V1_GET_POSITION_HPP))
    (Define BOOST_METAPARSE_V1_GET_POSITION_HPP 0 ;;
      Include h_v1_fwd_get_position ;;
      Says (Declares n_v1_get_position_impl) ;;
      Says (Defines n_v1_get_position) ;;
      Says (Uses n_v1_get_position_impl) ;;
      Done)
    (Done) Done.
(** include/boost/metaparse/v1/cpp11/impl/eval_later_result.hpp:1-39 *)
Definition c_v1_cpp11_impl_eval_later_result : code :=
  If (Not (Defined BOOST_METAPARSE_V1_CPP11_IMPL_EVAL_LATER_RESULT_HPP))
    (Define BOOST_METAPARSE_V1_CPP11_IMPL_EVAL_LATER_RESULT_HPP 0 ;;
      Include h_v1_get_position ;;
      Says (Defines n_v1_impl_eval_later_result) ;;
      Says (Uses n_v1_get_position) ;;
      Done)
    (Done) Done.
(** include/boost/metaparse/v1/define_error.hpp:1-25 *)
Definition c_v1_define_error : code :=
  If (Not (Defined BOOST_METAPARSE_V1_DEFINE_ERROR_HPP))
    (Define BOOST_METAPARSE_V1_DEFINE_ERROR_HPP 0 ;;
      If (Defined BOOST_METAPARSE_V1_DEFINE_ERROR)
        (Error ;;
          Done)
        (Done)
      (Define BOOST_METAPARSE_V1_DEFINE_ERROR 0 ;;
      Done))
    (Done) Done.
(** include/boost/metaparse/v1/error/none_of_the_expected_cases_found.hpp:1-29 *)
Definition c_v1_error_none_of_the_expected_cases_found : code :=
  If (Not (Defined BOOST_METAPARSE_V1_ERROR_NONE_OF_THE_EXPECTED_CASES_FOUND_HPP))
    (Define BOOST_METAPARSE_V1_ERROR_NONE_OF_THE_EXPECTED_CASES_FOUND_HPP 0 ;;
      Include h_v1_define_error ;;
      Needs BOOST_METAPARSE_V1_DEFINE_ERROR ;;
      Says (Defines n_v1_error_none_of_the_expected_cases_found) ;;
      Done)
    (Done) Done.
(** include/boost/metaparse/v1/cpp11/one_of.hpp:1-56 *)
Definition c_v1_cpp11_one_of : code :=
  If (Not (Defined BOOST_METAPARSE_V1_CPP11_ONE_OF_HPP))
    (Define BOOST_METAPARSE_V1_CPP11_ONE_OF_HPP 0 ;;
      Include h_v1_is_error ;;
      Include h_v1_fail ;;
      Include h_v1_cpp11_impl_eval_later_result ;;
      Include h_v1_error_none_of_the_expected_cases_found ;;
      Says (Declares n_v1_one_of) ;;
      Says (Uses n_v1_one_of) ;;
      Says (Uses n_v1_is_error) ;;
      Says (Uses n_v1_impl_eval_later_result) ;;
      Says (Uses n_v1_fail) ;;
      Says (Uses n_v1_error_none_of_the_expected_cases_found) ;;
      Done)
    (Done) Done.
(** include/boost/metaparse/v1/cpp98/impl/later_result.hpp:1-39 *)
Definition c_v1_cpp98_impl_later_result : code :=
  If (Not (Defined BOOST_METAPARSE_V1_CPP98_IMPL_LATER_RESULT_HPP))
    (Define BOOST_METAPARSE_V1_CPP98_IMPL_LATER_RESULT_HPP 0 ;;
      Include h_v1_get_position ;;
      Says (Defines n_v1_impl_later_result) ;;
      Says (Uses n_v1_get_position) ;;
      Done)
    (Done) Done.
(** include/boost/metaparse/v1/cpp98/impl/one_of_fwd_op.hpp:1-46 *)
Definition c_v1_cpp98_impl_one_of_fwd_op : code :=
  If (Not (Defined BOOST_METAPARSE_V1_IMPL_ONE_OF_FWD_OP_HPP))
    (Define BOOST_METAPARSE_V1_IMPL_ONE_OF_FWD_OP_HPP 0 ;;
      Include h_v1_is_error ;;
      Include h_v1_cpp98_impl_later_result ;;
      Says (Defines n_v1_impl_one_of_fwd_op) ;;
      Says (Uses n_v1_impl_one_of_fwd_op) ;;
      Says (Uses n_v1_is_error) ;;
      Says (Uses n_v1_impl_later_result) ;;
      Done)
    (Done) Done.
(** include/boost/metaparse/v1/cpp98/impl/one_of.hpp:1-44 *)
Definition c_v1_cpp98_impl_one_of : code :=
  If (Not (Defined BOOST_METAPARSE_V1_IMPL_ONE_OF_HPP))
    (Define BOOST_METAPARSE_V1_IMPL_ONE_OF_HPP 0 ;;
      Include h_v1_error_none_of_the_expected_cases_found ;;
      Include h_v1_fail ;;
      Include h_v1_cpp98_impl_one_of_fwd_op ;;
      Says (Defines n_v1_impl_one_of) ;;
      Says (Uses n_v1_impl_one_of) ;;
      Says (Uses n_v1_fail) ;;
      Says (Uses n_v1_error_none_of_the_expected_cases_found) ;;
      Says (Uses n_v1_impl_one_of_fwd_op) ;;
      Done)
    (Done) Done.
(** include/boost/metaparse/limit_one_of_size.hpp:1-14 *)
Definition c_limit_one_of_size : code :=
  If (Not (Defined BOOST_METAPARSE_LIMIT_ONE_OF_SIZE_HPP))
    (Define BOOST_METAPARSE_LIMIT_ONE_OF_SIZE_HPP 0 ;;
      If (Not (Defined BOOST_METAPARSE_LIMIT_ONE_OF_SIZE))
        (Define BOOST_METAPARSE_LIMIT_ONE_OF_SIZE 20 ;;
          Done)
        (Done) Done)
    (Done) Done.
(** include/boost/metaparse/v1/cpp98/one_of.hpp:1-42 *)
Definition c_v1_cpp98_one_of : code :=
  If (Not (Defined BOOST_METAPARSE_V1_CPP98_ONE_OF_HPP))
    (Define BOOST_METAPARSE_V1_CPP98_ONE_OF_HPP 0 ;;
      Include h_v1_cpp98_impl_one_of ;;
      Include h_limit_one_of_size ;;
      Needs BOOST_METAPARSE_LIMIT_ONE_OF_SIZE ;;
      Says (Defines n_v1_one_of) ;;
      Says (Uses n_v1_impl_one_of) ;;
      Done)
    (Done) Done.
(** include/boost/metaparse/v1/one_of.hpp:1-18 *)
Definition c_v1_one_of : code :=
  If (Not (Defined BOOST_METAPARSE_V1_ONE_OF_HPP))
    (Define BOOST_METAPARSE_V1_ONE_OF_HPP 0 ;;
      Include h_config ;;
      If (AtLeast BOOST_METAPARSE_STD 2011)
        (Include h_v1_cpp11_one_of ;;
          Done)
        (Include h_v1_cpp98_one_of ;;
          Done) Done)
    (Done) Done.
(** include/boost/metaparse/v1/error/digit_expected.hpp:1-26 *)
Definition c_v1_error_digit_expected : code :=
  If (Not (Defined BOOST_METAPARSE_V1_ERROR_DIGIT_EXPECTED_HPP))
    (Define BOOST_METAPARSE_V1_ERROR_DIGIT_EXPECTED_HPP 0 ;;
      Include h_v1_define_error ;;
      Needs BOOST_METAPARSE_V1_DEFINE_ERROR ;;
      Says (Defines n_v1_error_digit_expected) ;;
      Done)
    (Done) Done.
(** include/boost/metaparse/v1/error/unexpected_end_of_input.hpp:1-30 *)
Definition c_v1_error_unexpected_end_of_input : code :=
  If (Not (Defined BOOST_METAPARSE_V1_ERROR_UNEXPECTED_END_OF_INPUT_HPP))
    (Define BOOST_METAPARSE_V1_ERROR_UNEXPECTED_END_OF_INPUT_HPP 0 ;;
      Include h_v1_define_error ;;
      Needs BOOST_METAPARSE_V1_DEFINE_ERROR ;;
      Says (Defines n_v1_error_unexpected_end_of_input) ;;
      Done)
    (Done) Done.
(** include/boost/metaparse/v1/fwd/next_char.hpp:1-25 *)
Definition c_v1_fwd_next_char : code :=
  If (Not (Defined BOOST_METAPARSE_V1_FWD_NEXT_CHAR_HPP))
    (Define BOOST_METAPARSE_V1_FWD_NEXT_CHAR_HPP 0 ;;
      Says (Declares n_v1_next_char_impl) ;;
      Says (Declares n_v1_next_char) ;;
      Done)
    (Done) Done.
(** include/boost/metaparse/v1/next_char.hpp:1-30 *)
Definition c_v1_next_char : code :=
  If (Not (Defined BOOST_METAPARSE_V1_NEXT_CHAR_HPP))
    (Define BOOST_METAPARSE_V1_NEXT_CHAR_HPP 0 ;;
      Include h_v1_fwd_next_char ;;
      Says (Defines n_v1_next_char) ;;
      Says (Uses n_v1_next_char_impl) ;;
      Done)
    (Done) Done.
(** include/boost/metaparse/v1/fwd/next_line.hpp:1-25 *)
Definition c_v1_fwd_next_line : code :=
  If (Not (Defined BOOST_METAPARSE_V1_FWD_NEXT_LINE_IMPL_HPP))
    (Define BOOST_METAPARSE_V1_FWD_NEXT_LINE_IMPL_HPP 0 ;;
      Says (Declares n_v1_next_line_impl) ;;
      Says (Declares n_v1_next_line) ;;
      Done)
    (Done) Done.
(** include/boost/metaparse/v1/next_line.hpp:1-30 *)
Definition c_v1_next_line : code :=
  If (Not (Defined BOOST_METAPARSE_V1_NEXT_LINE_HPP))
    (Define BOOST_METAPARSE_V1_NEXT_LINE_HPP 0 ;;
      Include h_v1_fwd_next_line ;;
      Says (Defines n_v1_next_line) ;;
      Says (Uses n_v1_next_line_impl) ;;
      Done)
    (Done) Done.
(** include/boost/metaparse/v1/fwd/get_prev_char.hpp:1-25 *)
Definition c_v1_fwd_get_prev_char : code :=
  If (Not (Defined BOOST_METAPARSE_V1_FWD_GET_PREV_CHAR_HPP))
    (Define BOOST_METAPARSE_V1_FWD_GET_PREV_CHAR_HPP 0 ;;
      Says (Declares n_v1_get_prev_char_impl) ;;
      Says (Declares n_v1_get_prev_char) ;;
      Done)
    (Done) Done.
(** include/boost/metaparse/v1/get_prev_char.hpp:1-29 *)
Definition c_v1_get_prev_char : code :=
  If (Not (Defined BOOST_METAPARSE_V1_GET_PREV_CHAR_HPP))
    (Define BOOST_METAPARSE_V1_GET_PREV_CHAR_HPP 0 ;;
      Include h_v1_fwd_get_prev_char ;;
      Says (Declares n_v1_get_prev_char_impl) ;;
      Says (Defines n_v1_get_prev_char) ;;
      Says (Uses n_v1_get_prev_char_impl) ;;
      Done)
    (Done) Done.
(** include/boost/metaparse/v1/one_char.hpp:1-71 *)
Definition c_v1_one_char : code :=
  If (Not (Defined BOOST_METAPARSE_V1_ONE_CHAR_HPP))
    (Define BOOST_METAPARSE_V1_ONE_CHAR_HPP 0 ;;
      Include h_v1_error_unexpected_end_of_input ;;
      Include h_v1_next_char ;;
      Include h_v1_next_line ;;
      Include h_v1_accept ;;
      Include h_v1_reject ;;
      Include h_v1_get_prev_char ;;
      Says (Defines n_v1_one_char) ;;
      Says (Uses n_v1_get_prev_char) ;;
      Says (Uses n_v1_next_line) ;;
      Says (Uses n_v1_next_char) ;;
      Says (Uses n_v1_accept) ;;
      Says (Uses n_v1_one_char) ;;
      Says (Uses n_v1_reject) ;;
      Says (Uses n_v1_error_unexpected_end_of_input) ;;
      Done)
    (Done) Done.
(** include/boost/metaparse/v1/change_error_message.hpp:1-39 *)
Definition c_v1_change_error_message : code :=
  If (Not (Defined BOOST_METAPARSE_V1_CHANGE_ERROR_MESSAGE_HPP))
    (Define BOOST_METAPARSE_V1_CHANGE_ERROR_MESSAGE_HPP 0 ;;
      Include h_v1_is_error ;;
      Include h_v1_reject ;;
      Says (Defines n_v1_change_error_message) ;;
      Says (Uses n_v1_is_error) ;;
      Says (Uses n_v1_reject) ;;
      Says (Uses n_v1_change_error_message) ;;
      Done)
    (Done) Done.
(** include/boost/metaparse/v1/util/in_range_c.hpp:1-38 *)
Definition c_v1_util_in_range_c : code :=
  If (Not (Defined BOOST_METAPARSE_V1_UTIL_IN_RANGE_C_HPP))
    (Define BOOST_METAPARSE_V1_UTIL_IN_RANGE_C_HPP 0 ;;
      Says (Defines n_v1_util_in_range_c) ;;
      Says (Uses n_v1_util_in_range_c) ;;
      Done)
    (Done) Done.
(** include/boost/metaparse/v1/util/is_digit.hpp:1-38 *)
Definition c_v1_util_is_digit : code :=
  If (Not (Defined BOOST_METAPARSE_V1_UTIL_IS_DIGIT_HPP))
    (Define BOOST_METAPARSE_V1_UTIL_IS_DIGIT_HPP 0 ;;
      Include h_v1_util_in_range_c ;;
      Says (Defines n_v1_util_is_digit) ;;
      Says (Uses n_v1_util_in_range_c) ;;
      Says (Uses n_v1_util_is_digit) ;;
      Done)
    (Done) Done.
(** include/boost/metaparse/v1/digit.hpp:1-34 *)
Definition c_v1_digit : code :=
  If (Not (Defined BOOST_METAPARSE_V1_DIGIT_HPP))
    (Define BOOST_METAPARSE_V1_DIGIT_HPP 0 ;;
      Include h_v1_error_digit_expected ;;
      Include h_v1_accept_when ;;
      Include h_v1_one_char ;;
      Include h_v1_change_error_message ;;
      Include h_v1_util_is_digit ;;
      Says (Uses n_v1_accept_when) ;;
      Says (Uses n_v1_change_error_message) ;;
      Says (Uses n_v1_one_char) ;;
      Says (Uses n_v1_error_digit_expected) ;;
      Says (Uses n_v1_util_is_digit) ;;
      Says (Defines n_v1_digit) ;;
      Done)
    (Done) Done.
(** include/boost/metaparse/v1/error/letter_expected.hpp:1-26 *)
Definition c_v1_error_letter_expected : code :=
  If (Not (Defined BOOST_METAPARSE_V1_ERROR_LETTER_EXPECTED_HPP))
    (Define BOOST_METAPARSE_V1_ERROR_LETTER_EXPECTED_HPP 0 ;;
      Include h_v1_define_error ;;
      Needs BOOST_METAPARSE_V1_DEFINE_ERROR ;;
      Says (Defines n_v1_error_letter_expected) ;;
      Done)
    (Done) Done.
(** include/boost/metaparse/v1/util/is_ucase_letter.hpp:1-38 *)
Definition c_v1_util_is_ucase_letter : code :=
  If (Not (Defined BOOST_METAPARSE_V1_UTIL_IS_UCASE_LETTER_HPP))
    (Define BOOST_METAPARSE_V1_UTIL_IS_UCASE_LETTER_HPP 0 ;;
      Include h_v1_util_in_range_c ;;
      Says (Defines n_v1_util_is_ucase_letter) ;;
      Says (Uses n_v1_util_in_range_c) ;;
      Says (Uses n_v1_util_is_ucase_letter) ;;
      Done)
    (Done) Done.
(** include/boost/metaparse/v1/util/is_lcase_letter.hpp:1-38 *)
Definition c_v1_util_is_lcase_letter : code :=
  If (Not (Defined BOOST_METAPARSE_V1_UTIL_IS_LCASE_LETTER_HPP))
    (Define BOOST_METAPARSE_V1_UTIL_IS_LCASE_LETTER_HPP 0 ;;
      Include h_v1_util_in_range_c ;;
      Says (Defines n_v1_util_is_lcase_letter) ;;
      Says (Uses n_v1_util_in_range_c) ;;
      Says (Uses n_v1_util_is_lcase_letter) ;;
      Done)
    (Done) Done.
(** include/boost/metaparse/v1/util/is_letter.hpp:1-44 *)
Definition c_v1_util_is_letter : code :=
  If (Not (Defined BOOST_METAPARSE_V1_UTIL_IS_LETTER_HPP))
    (Define BOOST_METAPARSE_V1_UTIL_IS_LETTER_HPP 0 ;;
      Include h_v1_util_is_ucase_letter ;;
      Include h_v1_util_is_lcase_letter ;;
      Says (Defines n_v1_util_is_letter) ;;
      Says (Uses n_v1_util_is_lcase_letter) ;;
      Says (Uses n_v1_util_is_ucase_letter) ;;
      Says (Uses n_v1_util_is_letter) ;;
      Done)
    (Done) Done.
(** include/boost/metaparse/v1/letter.hpp:1-29 *)
Definition c_v1_letter : code :=
  If (Not (Defined BOOST_METAPARSE_V1_LETTER_HPP))
    (Define BOOST_METAPARSE_V1_LETTER_HPP 0 ;;
      Include h_v1_error_letter_expected ;;
      Include h_v1_accept_when ;;
      Include h_v1_one_char ;;
      Include h_v1_util_is_letter ;;
      Says (Uses n_v1_accept_when) ;;
      Says (Uses n_v1_one_char) ;;
      Says (Uses n_v1_util_is_letter) ;;
      Says (Uses n_v1_error_letter_expected) ;;
      Says (Defines n_v1_letter) ;;
      Done)
    (Done) Done.
(** include/boost/metaparse/v1/alphanum.hpp:1-25 *)
Definition c_v1_alphanum : code :=
  If (Not (Defined BOOST_METAPARSE_V1_ALPHANUM_HPP))
    (Define BOOST_METAPARSE_V1_ALPHANUM_HPP 0 ;;
      Include h_v1_one_of ;;
      Include h_v1_digit ;;
      Include h_v1_letter ;;
      Says (Uses n_v1_one_of) ;;
      Says (Uses n_v1_letter) ;;
      Says (Uses n_v1_digit) ;;
      Says (Defines n_v1_alphanum) ;;
      Done)
    (Done) Done.
(** include/boost/metaparse/alphanum.hpp:1-20 *)
Definition c_alphanum : code :=
  If (Not (Defined BOOST_METAPARSE_ALPHANUM_HPP))
    (Define BOOST_METAPARSE_ALPHANUM_HPP 0 ;;
      Include h_v1_alphanum ;;
      Says (Uses n_v1_alphanum) ;;
      Says (Declares n_alphanum) ;;
      Done)
    (Done) Done.
(** include/boost/metaparse/v1/get_remaining.hpp:1-29 *)
Definition c_v1_get_remaining : code :=
  If (Not (Defined BOOST_METAPARSE_V1_GET_REMAINING_HPP))
    (Define BOOST_METAPARSE_V1_GET_REMAINING_HPP 0 ;;
      Include h_v1_fwd_get_remaining ;;
      Says (Declares n_v1_get_remaining_impl) ;;
      Says (Defines n_v1_get_remaining) ;;
      Says (Uses n_v1_get_remaining_impl) ;;
      Done)
    (Done) Done.
(** include/boost/metaparse/v1/always.hpp:1-51 *)
Definition c_v1_always : code :=
  If (Not (Defined BOOST_METAPARSE_V1_ALWAYS_HPP))
    (Define BOOST_METAPARSE_V1_ALWAYS_HPP 0 ;;
      Include h_v1_accept ;;
      Include h_v1_is_error ;;
      Include h_v1_get_remaining ;;
      Include h_v1_get_position ;;
      Says (Defines n_v1_always) ;;
      Says (Uses n_v1_accept) ;;
      Says (Uses n_v1_get_remaining) ;;
      Says (Uses n_v1_get_position) ;;
      Says (Uses n_v1_always) ;;
      Says (Uses n_v1_is_error) ;;
      Done)
    (Done) Done.
(** include/boost/metaparse/v1/error/literal_expected.hpp:1-36 *)
Definition c_v1_error_literal_expected : code :=
  If (Not (Defined BOOST_METAPARSE_V1_ERROR_LITERAL_EXPECTED_HPP))
    (Define BOOST_METAPARSE_V1_ERROR_LITERAL_EXPECTED_HPP 0 ;;
      Says (Defines n_v1_error_literal_expected) ;;
      Says (Uses n_v1_error_literal_expected) ;;
      Done)
    (Done) Done.
(** include/boost/metaparse/v1/impl/is_char_c.hpp:1-33 *)
Definition c_v1_impl_is_char_c : code :=
  If (Not (Defined BOOST_METAPARSE_V1_IMPL_IS_CHAR_C_HPP))
    (Define BOOST_METAPARSE_V1_IMPL_IS_CHAR_C_HPP 0 ;;
      Says (Defines n_v1_impl_is_char_c) ;;
      Says (Uses n_v1_impl_is_char_c) ;;
      Done)
    (Done) Done.
(** include/boost/metaparse/v1/lit_c.hpp:1-34 *)
Definition c_v1_lit_c : code :=
  If (Not (Defined BOOST_METAPARSE_V1_LIT_C_HPP))
    (Define BOOST_METAPARSE_V1_LIT_C_HPP 0 ;;
      Include h_v1_error_literal_expected ;;
      Include h_v1_accept_when ;;
      Include h_v1_one_char ;;
      Include h_v1_change_error_message ;;
      Include h_v1_impl_is_char_c ;;
      Says (Defines n_v1_lit_c) ;;
      Says (Uses n_v1_accept_when) ;;
      Says (Uses n_v1_change_error_message) ;;
      Says (Uses n_v1_one_char) ;;
      Says (Uses n_v1_error_literal_expected) ;;
      Says (Uses n_v1_impl_is_char_c) ;;
      Done)
    (Done) Done.
(** include/boost/metaparse/v1/always_c.hpp:1-25 *)
Definition c_v1_always_c : code :=
  If (Not (Defined BOOST_METAPARSE_V1_ALWAYS_C_HPP))
    (Define BOOST_METAPARSE_V1_ALWAYS_C_HPP 0 ;;
      Include h_v1_always ;;
      Include h_v1_lit_c ;;
      Says (Defines n_v1_always_c) ;;
      Says (Uses n_v1_always) ;;
      Says (Uses n_v1_lit_c) ;;
      Done)
    (Done) Done.
(** include/boost/metaparse/always_c.hpp:1-20 *)
Definition c_always_c : code :=
  If (Not (Defined BOOST_METAPARSE_ALWAYS_C_HPP))
    (Define BOOST_METAPARSE_ALWAYS_C_HPP 0 ;;
      Include h_v1_always_c ;;
      Says (Uses n_v1_always_c) ;;
      Says (Declares n_always_c) ;;
      Done)
    (Done) Done.
(** include/boost/metaparse/always.hpp:1-20 *)
Definition c_always : code :=
  If (Not (Defined BOOST_METAPARSE_ALWAYS_HPP))
    (Define BOOST_METAPARSE_ALWAYS_HPP 0 ;;
      Include h_v1_always ;;
      Says (Uses n_v1_always) ;;
      Says (Declares n_always) ;;
      Done)
    (Done) Done.
(** include/boost/metaparse/v1/foldl.hpp:1-65 *)
Definition c_v1_foldl : code :=
  If (Not (Defined BOOST_METAPARSE_V1_FOLDL_HPP))
    (Define BOOST_METAPARSE_V1_FOLDL_HPP 0 ;;
      Include h_v1_accept ;;
      Include h_v1_is_error ;;
      Include h_v1_get_position ;;
      Include h_v1_get_result ;;
      Include h_v1_get_remaining ;;
      Says (Defines n_v1_foldl) ;;
      Says (Uses n_v1_foldl) ;;
      Says (Uses n_v1_get_result) ;;
      Says (Uses n_v1_get_remaining) ;;
      Says (Uses n_v1_get_position) ;;
      Says (Uses n_v1_accept) ;;
      Says (Uses n_v1_is_error) ;;
      Done)
    (Done) Done.
(** include/boost/metaparse/v1/impl/back_inserter.hpp:1-32 *)
Definition c_v1_impl_back_inserter : code :=
  If (Not (Defined BOOST_METAPARSE_V1_IMPL_BACK_INSERTER_HPP))
    (Define BOOST_METAPARSE_V1_IMPL_BACK_INSERTER_HPP 0 ;;
      Says (Defines n_v1_impl_back_inserter) ;;
      Says (Uses n_v1_impl_back_inserter) ;;
      Done)
    (Done) Done.
(** include/boost/metaparse/v1/repeated.hpp:1-27 *)
Definition c_v1_repeated : code :=
  If (Not (Defined BOOST_METAPARSE_V1_REPEATED_HPP))
    (Define BOOST_METAPARSE_V1_REPEATED_HPP 0 ;;
      Include h_v1_foldl ;;
      Include h_v1_impl_back_inserter ;;
      Says (Defines n_v1_repeated) ;;
      Says (Uses n_v1_foldl) ;;
      Says (Uses n_v1_impl_back_inserter) ;;
      Done)
    (Done) Done.
(** include/boost/metaparse/repeated.hpp:1-20 *)
Definition c_repeated : code :=
  If (Not (Defined BOOST_METAPARSE_REPEATED_HPP))
    (Define BOOST_METAPARSE_REPEATED_HPP 0 ;;
      Include h_v1_repeated ;;
      Says (Uses n_v1_repeated) ;;
      Says (Declares n_repeated) ;;
      Done)
    (Done) Done.
(** include/boost/metaparse/v1/foldl1.hpp:1-38 *)
Definition c_v1_foldl1 : code :=
  If (Not (Defined BOOST_METAPARSE_V1_FOLDL1_HPP))
    (Define BOOST_METAPARSE_V1_FOLDL1_HPP 0 ;;
      Include h_v1_foldl ;;
      Says (Defines n_v1_foldl1) ;;
      Says (Uses n_v1_foldl1) ;;
      Says (Uses n_v1_is_error) ;;
      Says (Uses n_v1_foldl) ;;
      Done)
    (Done) Done.
(** include/boost/metaparse/v1/repeated1.hpp:1-29 *)
Definition c_v1_repeated1 : code :=
  If (Not (Defined BOOST_METAPARSE_V1_REPEATED1_HPP))
    (Define BOOST_METAPARSE_V1_REPEATED1_HPP 0 ;;
      Include h_v1_foldl1 ;;
      Include h_v1_impl_back_inserter ;;
      Says (Defines n_v1_repeated1) ;;
      Says (Uses n_v1_foldl1) ;;
      Says (Uses n_v1_impl_back_inserter) ;;
      Done)
    (Done) Done.
(** include/boost/metaparse/repeated1.hpp:1-20 *)
Definition c_repeated1 : code :=
  If (Not (Defined BOOST_METAPARSE_REPEATED1_HPP))
    (Define BOOST_METAPARSE_REPEATED1_HPP 0 ;;
      Include h_v1_repeated1 ;;
      Says (Uses n_v1_repeated1) ;;
      Says (Declares n_repeated1) ;;
      Done)
    (Done) Done.
(** include/boost/metaparse/v1/impl/void_.hpp:1-25 *)
Definition c_v1_impl_void_ : code :=
  If (Not (Defined BOOST_METAPARSE_V1_IMPL_VOID_HPP))
    (Define BOOST_METAPARSE_V1_IMPL_VOID_HPP 0 ;;
      Says (Defines n_v1_impl_void_) ;;
      Says (Uses n_v1_impl_void_) ;;
      Done)
    (Done) Done.
(** include/boost/metaparse/v1/error/expected_to_fail.hpp:1-30 *)
Definition c_v1_error_expected_to_fail : code :=
  If (Not (Defined BOOST_METAPARSE_V1_ERROR_EXPECTED_TO_FAIL_HPP))
    (Define BOOST_METAPARSE_V1_ERROR_EXPECTED_TO_FAIL_HPP 0 ;;
      Include h_v1_define_error ;;
      Needs BOOST_METAPARSE_V1_DEFINE_ERROR ;;
      Says (Defines n_v1_error_expected_to_fail) ;;
      Done)
    (Done) Done.
(** include/boost/metaparse/v1/fail_at_first_char_expected.hpp:1-58 *)
Definition c_v1_fail_at_first_char_expected : code :=
  If (Not (Defined BOOST_METAPARSE_V1_FAIL_AT_FIRST_CHAR_EXPECTED_HPP))
    (Define BOOST_METAPARSE_V1_FAIL_AT_FIRST_CHAR_EXPECTED_HPP 0 ;;
      Include h_v1_impl_void_ ;;
      Include h_v1_accept ;;
      Include h_v1_reject ;;
      Include h_v1_is_error ;;
      Include h_v1_get_position ;;
      Include h_v1_error_expected_to_fail ;;
      Says (Defines n_v1_fail_at_first_char_expected) ;;
      Says (Uses n_v1_get_position) ;;
      Says (Uses n_v1_accept) ;;
      Says (Uses n_v1_impl_void_) ;;
      Says (Uses n_v1_fail_at_first_char_expected) ;;
      Says (Uses n_v1_is_error) ;;
      Says (Uses n_v1_reject) ;;
      Says (Uses n_v1_error_expected_to_fail) ;;
      Done)
    (Done) Done.
(** include/boost/metaparse/v1/foldl_reject_incomplete.hpp:1-77 *)
Definition c_v1_foldl_reject_incomplete : code :=
  If (Not (Defined BOOST_METAPARSE_V1_FOLDL_REJECT_INCOMPLETE_HPP))
    (Define BOOST_METAPARSE_V1_FOLDL_REJECT_INCOMPLETE_HPP 0 ;;
      Include h_v1_fail_at_first_char_expected ;;
      Include h_v1_is_error ;;
      Include h_v1_get_position ;;
      Include h_v1_get_result ;;
      Include h_v1_get_remaining ;;
      Says (Defines n_v1_foldl_reject_incomplete) ;;
      Says (Uses n_v1_foldl_reject_incomplete) ;;
      Says (Uses n_v1_get_result) ;;
      Says (Uses n_v1_get_remaining) ;;
      Says (Uses n_v1_get_position) ;;
      Says (Uses n_v1_accept) ;;
      Says (Uses n_v1_is_error) ;;
      Done)
    (Done) Done.
(** include/boost/metaparse/v1/foldl_reject_incomplete1.hpp:1-38 *)
Definition c_v1_foldl_reject_incomplete1 : code :=
  If (Not (Defined BOOST_METAPARSE_V1_FOLDL_REJECT_INCOMPLETE1_HPP))
    (Define BOOST_METAPARSE_V1_FOLDL_REJECT_INCOMPLETE1_HPP 0 ;;
      Include h_v1_foldl_reject_incomplete ;;
      Says (Defines n_v1_foldl_reject_incomplete1) ;;
      Says (Uses n_v1_foldl_reject_incomplete1) ;;
      Says (Uses n_v1_is_error) ;;
      Says (Uses n_v1_foldl_reject_incomplete) ;;
      Done)
    (Done) Done.
(** include/boost/metaparse/v1/repeated_reject_incomplete1.hpp:1-29 *)
Definition c_v1_repeated_reject_incomplete1 : code :=
  If (Not (Defined BOOST_METAPARSE_V1_REPEATED_REJECT_INCOMPLETE1_HPP))
    (Define BOOST_METAPARSE_V1_REPEATED_REJECT_INCOMPLETE1_HPP 0 ;;
      Include h_v1_foldl_reject_incomplete1 ;;
      Include h_v1_impl_back_inserter ;;
      Says (Defines n_v1_repeated_reject_incomplete1) ;;
      Says (Uses n_v1_foldl_reject_incomplete1) ;;
      Says (Uses n_v1_impl_back_inserter) ;;
      Done)
    (Done) Done.
(** include/boost/metaparse/repeated_reject_incomplete1.hpp:1-20 *)
Definition c_repeated_reject_incomplete1 : code :=
  If (Not (Defined BOOST_METAPARSE_REPEATED_REJECT_INCOMPLETE1_HPP))
    (Define BOOST_METAPARSE_REPEATED_REJECT_INCOMPLETE1_HPP 0 ;;
      Include h_v1_repeated_reject_incomplete1 ;;
      Says (Uses n_v1_repeated_reject_incomplete1) ;;
      Says (Declares n_repeated_reject_incomplete1) ;;
      Done)
    (Done) Done.
(** include/boost/metaparse/v1/repeated_reject_incomplete.hpp:1-29 *)
Definition c_v1_repeated_reject_incomplete : code :=
  If (Not (Defined BOOST_METAPARSE_V1_REPEATED_REJECT_INCOMPLETE_HPP))
    (Define BOOST_METAPARSE_V1_REPEATED_REJECT_INCOMPLETE_HPP 0 ;;
      Include h_v1_foldl_reject_incomplete ;;
      Include h_v1_impl_back_inserter ;;
      Says (Defines n_v1_repeated_reject_incomplete) ;;
      Says (Uses n_v1_foldl_reject_incomplete) ;;
      Says (Uses n_v1_impl_back_inserter) ;;
      Done)
    (Done) Done.
(** include/boost/metaparse/repeated_reject_incomplete.hpp:1-20 *)
Definition c_repeated_reject_incomplete : code :=
  If (Not (Defined BOOST_METAPARSE_REPEATED_REJECT_INCOMPLETE_HPP))
    (Define BOOST_METAPARSE_REPEATED_REJECT_INCOMPLETE_HPP 0 ;;
      Include h_v1_repeated_reject_incomplete ;;
      Says (Uses n_v1_repeated_reject_incomplete) ;;
      Says (Declares n_repeated_reject_incomplete) ;;
      Done)
    (Done) Done.
(** include/boost/metaparse/v1/cpp11/repeated_one_of1.hpp:1-25 *)
Definition c_v1_cpp11_repeated_one_of1 : code :=
  If (Not (Defined BOOST_METAPARSE_V1_CPP11_REPEATED_ONE_OF1_HPP))
    (Define BOOST_METAPARSE_V1_CPP11_REPEATED_ONE_OF1_HPP 0 ;;
      Include h_v1_one_of ;;
      Include h_v1_repeated1 ;;
      Says (Uses n_v1_repeated1) ;;
      Says (Uses n_v1_one_of) ;;
      Says (Defines n_v1_repeated_one_of1) ;;
      Done)
    (Done) Done.
(** include/boost/metaparse/v1/cpp98/repeated_one_of1.hpp:1-45 *)
Definition c_v1_cpp98_repeated_one_of1 : code :=
  If (Not (Defined BOOST_METAPARSE_V1_CPP98_REPEATED_ONE_OF1_HPP))
    (Define BOOST_METAPARSE_V1_CPP98_REPEATED_ONE_OF1_HPP 0 ;;
      Include h_limit_one_of_size ;;
      Include h_v1_cpp98_impl_one_of ;;
      Include h_v1_repeated1 ;;
      Needs BOOST_METAPARSE_LIMIT_ONE_OF_SIZE ;;
      Says (Defines n_v1_repeated_one_of1) ;;
      Says (Uses n_v1_repeated1) ;;
      Says (Uses n_v1_impl_one_of) ;;
      Done)
    (Done) Done.
(** include/boost/metaparse/v1/repeated_one_of1.hpp:1-18 *)
Definition c_v1_repeated_one_of1 : code :=
  If (Not (Defined BOOST_METAPARSE_V1_REPEATED_ONE_OF1_HPP))
    (Define BOOST_METAPARSE_V1_REPEATED_ONE_OF1_HPP 0 ;;
      Include h_config ;;
      If (AtLeast BOOST_METAPARSE_STD 2011)
        (Include h_v1_cpp11_repeated_one_of1 ;;
          Done)
        (Include h_v1_cpp98_repeated_one_of1 ;;
          Done) Done)
    (Done) Done.
(** include/boost/metaparse/repeated_one_of1.hpp:1-20 *)
Definition c_repeated_one_of1 : code :=
  If (Not (Defined BOOST_METAPARSE_REPEATED_ONE_OF1_HPP))
    (Define BOOST_METAPARSE_REPEATED_ONE_OF1_HPP 0 ;;
      Include h_v1_repeated_one_of1 ;;
      Says (Uses n_v1_repeated_one_of1) ;;
      Says (Declares n_repeated_one_of1) ;;
      Done)
    (Done) Done.
(** include/boost/metaparse/v1/cpp11/repeated_one_of.hpp:1-25 *)
Definition c_v1_cpp11_repeated_one_of : code :=
  If (Not (Defined BOOST_METAPARSE_V1_CPP11_REPEATED_ONE_OF_HPP))
    (Define BOOST_METAPARSE_V1_CPP11_REPEATED_ONE_OF_HPP 0 ;;
      Include h_v1_one_of ;;
      Include h_v1_repeated ;;
      Says (Uses n_v1_repeated) ;;
      Says (Uses n_v1_one_of) ;;
      Says (Defines n_v1_repeated_one_of) ;;
      Done)
    (Done) Done.
(** include/boost/metaparse/v1/cpp98/repeated_one_of.hpp:1-45 *)
Definition c_v1_cpp98_repeated_one_of : code :=
  If (Not (Defined BOOST_METAPARSE_V1_CPP98_REPEATED_ONE_OF_HPP))
    (Define BOOST_METAPARSE_V1_CPP98_REPEATED_ONE_OF_HPP 0 ;;
      Include h_limit_one_of_size ;;
      Include h_v1_cpp98_impl_one_of ;;
      Include h_v1_repeated ;;
      Needs BOOST_METAPARSE_LIMIT_ONE_OF_SIZE ;;
      Says (Defines n_v1_repeated_one_of) ;;
      Says (Uses n_v1_repeated) ;;
      Says (Uses n_v1_impl_one_of) ;;
      Done)
    (Done) Done.
(** include/boost/metaparse/v1/repeated_one_of.hpp:1-18 *)
Definition c_v1_repeated_one_of : code :=
  If (Not (Defined BOOST_METAPARSE_V1_REPEATED_ONE_OF_HPP))
    (Define BOOST_METAPARSE_V1_REPEATED_ONE_OF_HPP 0 ;;
      Include h_config ;;
      If (AtLeast BOOST_METAPARSE_STD 2011)
        (Include h_v1_cpp11_repeated_one_of ;;
          Done)
        (Include h_v1_cpp98_repeated_one_of ;;
          Done) Done)
    (Done) Done.
(** include/boost/metaparse/repeated_one_of.hpp:1-20 *)
Definition c_repeated_one_of : code :=
  If (Not (Defined BOOST_METAPARSE_REPEATED_ONE_OF_HPP))
    (Define BOOST_METAPARSE_REPEATED_ONE_OF_HPP 0 ;;
      Include h_v1_repeated_one_of ;;
      Says (Uses n_v1_repeated_one_of) ;;
      Says (Declares n_repeated_one_of) ;;
      Done)
    (Done) Done.
(** include/boost/metaparse/v1/fwd/build_parser.hpp:1-22 *)
Definition c_v1_fwd_build_parser : code :=
  If (Not (Defined BOOST_METAPARSE_V1_FWD_BUILD_PARSER_HPP))
    (Define BOOST_METAPARSE_V1_FWD_BUILD_PARSER_HPP 0 ;;
      Says (Declares n_v1_build_parser) ;;
      Done)
    (Done) Done.
(** include/boost/metaparse/v1/fwd/source_position.hpp:1-22 *)
Definition c_v1_fwd_source_position : code :=
  If (Not (Defined BOOST_METAPARSE_V1_FWD_SOURCE_POSITION_HPP))
    (Define BOOST_METAPARSE_V1_FWD_SOURCE_POSITION_HPP 0 ;;
      Says (Declares n_v1_source_position) ;;
      Done)
    (Done) Done.
(** include/boost/metaparse/v1/fwd/get_col.hpp:1-26 *)
Definition c_v1_fwd_get_col : code :=
  If (Not (Defined BOOST_METAPARSE_V1_FWD_GET_COL_HPP))
    (Define BOOST_METAPARSE_V1_FWD_GET_COL_HPP 0 ;;
      Says (Declares n_v1_get_col) ;;
      Says (Declares n_v1_get_col_impl) ;;
      Done)
    (Done) Done.
(** include/boost/metaparse/v1/get_col.hpp:1-29 *)
Definition c_v1_get_col : code :=
  If (Not (Defined BOOST_METAPARSE_V1_GET_COL_HPP))
    (Define BOOST_METAPARSE_V1_GET_COL_HPP 0 ;;
      Include h_v1_fwd_get_col ;;
      Says (Declares n_v1_get_col_impl) ;;
      Says (Defines n_v1_get_col) ;;
      Says (Uses n_v1_get_col_impl) ;;
      Done)
    (Done) Done.
(** include/boost/metaparse/v1/fwd/get_line.hpp:1-25 *)
Definition c_v1_fwd_get_line : code :=
  If (Not (Defined BOOST_METAPARSE_V1_FWD_GET_LINE_HPP))
    (Define BOOST_METAPARSE_V1_FWD_GET_LINE_HPP 0 ;;
      Says (Declares n_v1_get_line_impl) ;;
      Says (Declares n_v1_get_line) ;;
      Done)
    (Done) Done.
(** include/boost/metaparse/v1/get_line.hpp:1-29 *)
Definition c_v1_get_line : code :=
  If (Not (Defined BOOST_METAPARSE_V1_GET_LINE_HPP))
    (Define BOOST_METAPARSE_V1_GET_LINE_HPP 0 ;;
      Include h_v1_fwd_get_line ;;
      Says (Declares n_v1_get_line_impl) ;;
      Says (Defines n_v1_get_line) ;;
      Says (Uses n_v1_get_line_impl) ;;
      Done)
    (Done) Done.
(** include/boost/metaparse/v1/source_position_tag.hpp:1-80 *)
Definition c_v1_source_position_tag : code :=
  If (Not (Defined BOOST_METAPARSE_V1_SOURCE_POSITION_TAG_HPP))
    (Define BOOST_METAPARSE_V1_SOURCE_POSITION_TAG_HPP 0 ;;
      Include h_v1_fwd_source_position ;;
      Include h_v1_fwd_get_prev_char ;;
      Include h_v1_fwd_next_line ;;
      Include h_v1_fwd_next_char ;;
      Include h_v1_get_col ;;
      Include h_v1_get_line ;;
      Says (Defines n_v1_source_position_tag) ;;
      Says (Uses n_v1_source_position_tag) ;;
      Says (Uses n_v1_get_col_impl) ;;
      Says (Uses n_v1_get_line_impl) ;;
      Says (Uses n_v1_get_prev_char_impl) ;;
      Says (Uses n_v1_next_char_impl) ;;
      Says (Uses n_v1_source_position) ;;
      Says (Uses n_v1_get_line) ;;
      Says (Uses n_v1_get_col) ;;
      Says (Uses n_v1_next_line_impl) ;;
      Done)
    (Done) Done.
(** include/boost/metaparse/v1/source_position.hpp:1-156 *)
Definition c_v1_source_position : code :=
  If (Not (Defined BOOST_METAPARSE_V1_SOURCE_POSITION_HPP))
    (Define BOOST_METAPARSE_V1_SOURCE_POSITION_HPP 0 ;;
      Include h_v1_fwd_source_position ;;
      Include h_v1_source_position_tag ;;
      Says (Defines n_v1_source_position) ;;
      Says (Uses n_v1_source_position_tag) ;;
      Says (Uses n_v1_source_position) ;;
      Done)
    (Done) Done.
(** include/boost/metaparse/v1/start.hpp:1-32 *)
Definition c_v1_start : code :=
  If (Not (Defined BOOST_METAPARSE_V1_START_HPP))
    (Define BOOST_METAPARSE_V1_START_HPP 0 ;;
      Include h_v1_source_position ;;
      Says (Uses n_v1_source_position) ;;
      Says (Defines n_v1_start) ;;
      Done)
    (Done) Done.
(** include/boost/metaparse/v1/get_message.hpp:1-29 *)
Definition c_v1_get_message : code :=
  If (Not (Defined BOOST_METAPARSE_V1_GET_MESSAGE_HPP))
    (Define BOOST_METAPARSE_V1_GET_MESSAGE_HPP 0 ;;
      Include h_v1_fwd_get_message ;;
      Says (Declares n_v1_get_message_impl) ;;
      Says (Defines n_v1_get_message) ;;
      Says (Uses n_v1_get_message_impl) ;;
      Done)
    (Done) Done.
(** include/boost/metaparse/v1/build_parser.hpp:1-66 *)
Definition c_v1_build_parser : code :=
  If (Not (Defined BOOST_METAPARSE_V1_BUILD_PARSER_HPP))
    (Define BOOST_METAPARSE_V1_BUILD_PARSER_HPP 0 ;;
      Include h_v1_fwd_build_parser ;;
      Include h_v1_start ;;
      Include h_v1_get_result ;;
      Include h_v1_get_position ;;
      Include h_v1_get_message ;;
      Include h_v1_get_line ;;
      Include h_v1_get_col ;;
      Include h_v1_is_error ;;
      Says (Defines n_v1_x__________________PARSING_FAILED__________________x) ;;
      Says (Defines n_v1_parsing_failed) ;;
      Says (Uses n_v1_x__________________PARSING_FAILED__________________x) ;;
      Says (Uses n_v1_get_line) ;;
      Says (Uses n_v1_get_position) ;;
      Says (Uses n_v1_start) ;;
      Says (Uses n_v1_get_col) ;;
      Says (Uses n_v1_get_message) ;;
      Says (Defines n_v1_build_parser) ;;
      Says (Uses n_v1_build_parser) ;;
      Says (Uses n_v1_is_error) ;;
      Says (Uses n_v1_parsing_failed) ;;
      Says (Uses n_v1_get_result) ;;
      Done)
    (Done) Done.
(** include/boost/metaparse/build_parser.hpp:1-20 *)
Definition c_build_parser : code :=
  If (Not (Defined BOOST_METAPARSE_BUILD_PARSER_HPP))
    (Define BOOST_METAPARSE_BUILD_PARSER_HPP 0 ;;
      Include h_v1_build_parser ;;
      Says (Uses n_v1_build_parser) ;;
      Says (Declares n_build_parser) ;;
      Done)
    (Done) Done.
(** include/boost/metaparse/change_error_message.hpp:1-20 *)
Definition c_change_error_message : code :=
  If (Not (Defined BOOST_METAPARSE_CHANGE_ERROR_MESSAGE_HPP))
    (Define BOOST_METAPARSE_CHANGE_ERROR_MESSAGE_HPP 0 ;;
      Include h_v1_change_error_message ;;
      Says (Uses n_v1_change_error_message) ;;
      Says (Declares n_change_error_message) ;;
      Done)
    (Done) Done.
(** include/boost/metaparse/v1/debug_parsing_error.hpp:1-105 *)
Definition c_v1_debug_parsing_error : code :=
  If (Not (Defined BOOST_METAPARSE_V1_DEBUG_PARSING_ERROR_HPP))
    (Define BOOST_METAPARSE_V1_DEBUG_PARSING_ERROR_HPP 0 ;;
      Include h_v1_fwd_build_parser ;;
      Include h_v1_start ;;
      Include h_v1_is_error ;;
      Include h_v1_get_remaining ;;
      Says (Defines n_v1_debug_parsing_error) ;;
      Says (Uses n_v1_debug_parsing_error) ;;
      Says (Uses n_v1_start) ;;
      Says (Uses n_v1_get_line) ;;
      Says (Uses n_v1_get_col) ;;
      Says (Uses n_v1_get_remaining) ;;
      Says (Uses n_v1_is_error) ;;
      Says (Uses n_v1_build_parser) ;;
      Done)
    (Done) Done.
(** include/boost/metaparse/debug_parsing_error.hpp:1-21 *)
Definition c_debug_parsing_error : code :=
  If (Not (Defined BOOST_METAPARSE_DEBUG_PARSING_ERROR_HPP))
    (Define BOOST_METAPARSE_DEBUG_PARSING_ERROR_HPP 0 ;;
      Include h_v1_debug_parsing_error ;;
      Says (Uses n_v1_debug_parsing_error) ;;
      Says (Declares n_debug_parsing_error) ;;
      Done)
    (Done) Done.
(** include/boost/metaparse/define_error.hpp:1-17 *)
Definition c_define_error : code :=
  If (Not (Defined BOOST_METAPARSE_DEFINE_ERROR_HPP))
    (Define BOOST_METAPARSE_DEFINE_ERROR_HPP 0 ;;
      Include h_v1_define_error ;;
      If (Defined BOOST_METAPARSE_DEFINE_ERROR)
        (Error ;;
          Done)
        (Done)
      (Define BOOST_METAPARSE_DEFINE_ERROR 0 ;;
      Says (OffersMacro BOOST_METAPARSE_DEFINE_ERROR BOOST_METAPARSE_V1_DEFINE_ERROR) ;;
      Done))
    (Done) Done.
(** include/boost/metaparse/digit.hpp:1-20 *)
Definition c_digit : code :=
  If (Not (Defined BOOST_METAPARSE_DIGIT_HPP))
    (Define BOOST_METAPARSE_DIGIT_HPP 0 ;;
      Include h_v1_digit ;;
      Says (Uses n_v1_digit) ;;
      Says (Declares n_digit) ;;
      Done)
    (Done) Done.
(** include/boost/metaparse/v1/unless_error.hpp:1-29 *)
Definition c_v1_unless_error : code :=
  If (Not (Defined BOOST_METAPARSE_V1_UTIL_UNLESS_ERROR_HPP))
    (Define BOOST_METAPARSE_V1_UTIL_UNLESS_ERROR_HPP 0 ;;
      Include h_v1_is_error ;;
      Says (Defines n_v1_unless_error) ;;
      Says (Uses n_v1_is_error) ;;
      Done)
    (Done) Done.
(** include/boost/metaparse/v1/transform.hpp:1-50 *)
Definition c_v1_transform : code :=
  If (Not (Defined BOOST_METAPARSE_V1_TRANSFORM_HPP))
    (Define BOOST_METAPARSE_V1_TRANSFORM_HPP 0 ;;
      Include h_v1_accept ;;
      Include h_v1_get_result ;;
      Include h_v1_get_remaining ;;
      Include h_v1_get_position ;;
      Include h_v1_unless_error ;;
      Says (Defines n_v1_transform) ;;
      Says (Uses n_v1_accept) ;;
      Says (Uses n_v1_get_result) ;;
      Says (Uses n_v1_get_remaining) ;;
      Says (Uses n_v1_get_position) ;;
      Says (Uses n_v1_transform) ;;
      Says (Uses n_v1_unless_error) ;;
      Done)
    (Done) Done.
(** include/boost/metaparse/v1/util/digit_to_int_c.hpp:1-40 *)
Definition c_v1_util_digit_to_int_c : code :=
  If (Not (Defined BOOST_METAPARSE_V1_UTIL_DIGIT_TO_INT_C_HPP))
    (Define BOOST_METAPARSE_V1_UTIL_DIGIT_TO_INT_C_HPP 0 ;;
      Include h_v1_error_digit_expected ;;
      Says (Defines n_v1_util_digit_to_int_c) ;;
      Says (Uses n_v1_error_digit_expected) ;;
      Says (Uses n_v1_util_digit_to_int_c) ;;
      Done)
    (Done) Done.
(** include/boost/metaparse/v1/util/digit_to_int.hpp:1-38 *)
Definition c_v1_util_digit_to_int : code :=
  If (Not (Defined BOOST_METAPARSE_V1_UTIL_DIGIT_TO_INT_HPP))
    (Define BOOST_METAPARSE_V1_UTIL_DIGIT_TO_INT_HPP 0 ;;
      Include h_v1_util_digit_to_int_c ;;
      Says (Defines n_v1_util_digit_to_int) ;;
      Says (Uses n_v1_util_digit_to_int_c) ;;
      Says (Uses n_v1_util_digit_to_int) ;;
      Done)
    (Done) Done.
(** include/boost/metaparse/v1/digit_val.hpp:1-26 *)
Definition c_v1_digit_val : code :=
  If (Not (Defined BOOST_METAPARSE_V1_DIGIT_VAL_HPP))
    (Define BOOST_METAPARSE_V1_DIGIT_VAL_HPP 0 ;;
      Include h_v1_digit ;;
      Include h_v1_transform ;;
      Include h_v1_util_digit_to_int ;;
      Says (Uses n_v1_transform) ;;
      Says (Uses n_v1_digit) ;;
      Says (Uses n_v1_util_digit_to_int) ;;
      Says (Defines n_v1_digit_val) ;;
      Done)
    (Done) Done.
(** include/boost/metaparse/digit_val.hpp:1-20 *)
Definition c_digit_val : code :=
  If (Not (Defined BOOST_METAPARSE_DIGIT_VAL_HPP))
    (Define BOOST_METAPARSE_DIGIT_VAL_HPP 0 ;;
      Include h_v1_digit_val ;;
      Says (Uses n_v1_digit_val) ;;
      Says (Declares n_digit_val) ;;
      Done)
    (Done) Done.
(** include/boost/metaparse/v1/error/end_of_input_expected.hpp:1-29 *)
Definition c_v1_error_end_of_input_expected : code :=
  If (Not (Defined BOOST_METAPARSE_V1_END_OF_INPUT_EXPECTED_HPP))
    (Define BOOST_METAPARSE_V1_END_OF_INPUT_EXPECTED_HPP 0 ;;
      Include h_v1_define_error ;;
      Needs BOOST_METAPARSE_V1_DEFINE_ERROR ;;
      Says (Defines n_v1_error_end_of_input_expected) ;;
      Done)
    (Done) Done.
(** include/boost/metaparse/v1/empty.hpp:1-42 *)
Definition c_v1_empty : code :=
  If (Not (Defined BOOST_METAPARSE_V1_EMPTY_HPP))
    (Define BOOST_METAPARSE_V1_EMPTY_HPP 0 ;;
      Include h_v1_error_end_of_input_expected ;;
      Include h_v1_reject ;;
      Include h_v1_accept ;;
      Include h_v1_define_error ;;
      Says (Defines n_v1_empty) ;;
      Says (Uses n_v1_empty) ;;
      Says (Uses n_v1_accept) ;;
      Says (Uses n_v1_reject) ;;
      Says (Uses n_v1_error_end_of_input_expected) ;;
      Done)
    (Done) Done.
(** include/boost/metaparse/empty.hpp:1-20 *)
Definition c_empty : code :=
  If (Not (Defined BOOST_METAPARSE_EMPTY_HPP))
    (Define BOOST_METAPARSE_EMPTY_HPP 0 ;;
      Include h_v1_empty ;;
      Says (Uses n_v1_empty) ;;
      Says (Declares n_empty) ;;
      Done)
    (Done) Done.
(** include/boost/metaparse/v1/return_.hpp:1-34 *)
Definition c_v1_return_ : code :=
  If (Not (Defined BOOST_METAPARSE_V1_RETURN__HPP))
    (Define BOOST_METAPARSE_V1_RETURN__HPP 0 ;;
      Include h_v1_accept ;;
      Include h_v1_get_result ;;
      Says (Defines n_v1_return_) ;;
      Says (Uses n_v1_return_) ;;
      Says (Uses n_v1_accept) ;;
      Done)
    (Done) Done.
(** include/boost/metaparse/v1/cpp11/impl/nth_of_c_skip_remaining.hpp:1-60 *)
Definition c_v1_cpp11_impl_nth_of_c_skip_remaining : code :=
  If (Not (Defined BOOST_METAPARSE_V1_CPP11_IMPL_NTH_OF_C_SKIP_REMANING_HPP))
    (Define BOOST_METAPARSE_V1_CPP11_IMPL_NTH_OF_C_SKIP_REMANING_HPP 0 ;;
      Include h_v1_is_error ;;
      Include h_v1_get_remaining ;;
      Include h_v1_get_position ;;
      Include h_v1_return_ ;;
      Says (Declares n_v1_impl_nth_of_c_skip_remaining) ;;
      Says (Uses n_v1_impl_nth_of_c_skip_remaining) ;;
      Says (Uses n_v1_return_) ;;
      Says (Uses n_v1_get_remaining) ;;
      Says (Uses n_v1_get_position) ;;
      Says (Uses n_v1_is_error) ;;
      Done)
    (Done) Done.
(** include/boost/metaparse/v1/cpp11/impl/nth_of_c.hpp:1-82 *)
Definition c_v1_cpp11_impl_nth_of_c : code :=
  If (Not (Defined BOOST_METAPARSE_V1_CPP11_IMPL_NTH_OF_C_HPP))
    (Define BOOST_METAPARSE_V1_CPP11_IMPL_NTH_OF_C_HPP 0 ;;
      Include h_v1_cpp11_impl_nth_of_c_skip_remaining ;;
      Include h_v1_is_error ;;
      Include h_v1_get_remaining ;;
      Include h_v1_get_position ;;
      Include h_v1_get_result ;;
      Says (Declares n_v1_impl_nth_of_c) ;;
      Says (Uses n_v1_impl_nth_of_c) ;;
      Says (Uses n_v1_get_remaining) ;;
      Says (Uses n_v1_get_position) ;;
      Says (Uses n_v1_is_error) ;;
      Says (Uses n_v1_impl_nth_of_c_skip_remaining) ;;
      Says (Uses n_v1_get_result) ;;
      Done)
    (Done) Done.
(** include/boost/metaparse/v1/error/index_out_of_range.hpp:1-41 *)
Definition c_v1_error_index_out_of_range : code :=
  If (Not (Defined BOOST_METAPARSE_V1_ERROR_INDEX_OUT_OF_RANGE_HPP))
    (Define BOOST_METAPARSE_V1_ERROR_INDEX_OUT_OF_RANGE_HPP 0 ;;
      Says (Defines n_v1_error_index_out_of_range) ;;
      Says (Uses n_v1_error_index_out_of_range) ;;
      Done)
    (Done) Done.
(** include/boost/metaparse/v1/cpp11/first_of.hpp:1-36 *)
Definition c_v1_cpp11_first_of : code :=
  If (Not (Defined BOOST_METAPARSE_V1_CPP11_FIRST_OF_HPP))
    (Define BOOST_METAPARSE_V1_CPP11_FIRST_OF_HPP 0 ;;
      Include h_v1_cpp11_impl_nth_of_c ;;
      Include h_v1_fail ;;
      Include h_v1_error_index_out_of_range ;;
      Says (Defines n_v1_first_of) ;;
      Says (Uses n_v1_first_of) ;;
      Says (Uses n_v1_impl_nth_of_c) ;;
      Says (Uses n_v1_fail) ;;
      Says (Uses n_v1_error_index_out_of_range) ;;
      Done)
    (Done) Done.
(** include/boost/metaparse/v1/cpp98/impl/skip_seq.hpp:1-74 *)
Definition c_v1_cpp98_impl_skip_seq : code :=
  If (Not (Defined BOOST_METAPARSE_V1_CPP98_IMPL_SKIP_SEQ_HPP))
    (Define BOOST_METAPARSE_V1_CPP98_IMPL_SKIP_SEQ_HPP 0 ;;
      Include h_v1_is_error ;;
      Include h_v1_accept ;;
      Include h_v1_get_remaining ;;
      Include h_v1_get_position ;;
      Include h_v1_get_result ;;
      Says (Defines n_v1_impl_skip_seq) ;;
      Says (Uses n_v1_accept) ;;
      Says (Uses n_v1_get_remaining) ;;
      Says (Uses n_v1_get_position) ;;
      Says (Uses n_v1_is_error) ;;
      Says (Uses n_v1_get_result) ;;
      Done)
    (Done) Done.
(** include/boost/metaparse/v1/cpp98/impl/nth_of_c_impl.hpp:1-77 *)
Definition c_v1_cpp98_impl_nth_of_c_impl : code :=
  If (Not (Defined BOOST_METAPARSE_V1_CPP98_IMPL_NTH_OF_C_IMPL_HPP))
    (Define BOOST_METAPARSE_V1_CPP98_IMPL_NTH_OF_C_IMPL_HPP 0 ;;
      Include h_v1_cpp98_impl_skip_seq ;;
      Says (Defines n_v1_impl_nth_of_c_impl) ;;
      Says (Uses n_v1_impl_nth_of_c_impl) ;;
      Says (Uses n_v1_get_remaining) ;;
      Says (Uses n_v1_get_position) ;;
      Says (Uses n_v1_is_error) ;;
      Says (Uses n_v1_impl_skip_seq) ;;
      Done)
    (Done) Done.
(** include/boost/metaparse/limit_sequence_size.hpp:1-14 *)
Definition c_limit_sequence_size : code :=
  If (Not (Defined BOOST_METAPARSE_LIMIT_SEQUENCE_SIZE_HPP))
    (Define BOOST_METAPARSE_LIMIT_SEQUENCE_SIZE_HPP 0 ;;
      If (Not (Defined BOOST_METAPARSE_LIMIT_SEQUENCE_SIZE))
        (Define BOOST_METAPARSE_LIMIT_SEQUENCE_SIZE 5 ;;
          Done)
        (Done) Done)
    (Done) Done.
(** include/boost/metaparse/v1/cpp98/impl/nth_of_c.hpp:1-61 *)
Definition c_v1_cpp98_impl_nth_of_c : code :=
  If (Not (Defined BOOST_METAPARSE_V1_CPP98_IMPL_NTH_OF_C_HPP))
    (Define BOOST_METAPARSE_V1_CPP98_IMPL_NTH_OF_C_HPP 0 ;;
      Include h_v1_cpp98_impl_nth_of_c_impl ;;
      Include h_v1_error_index_out_of_range ;;
      Include h_v1_fail ;;
      Include h_limit_sequence_size ;;
      If (Defined BOOST_METAPARSE_NTH_OF_CASE)
        (Error ;;
          Done)
        (Done)
      (Define BOOST_METAPARSE_NTH_OF_CASE 0 ;;
      Says (Defines n_v1_impl_nth_of_c_N) ;;
      Says (Uses n_v1_impl_nth_of_c_impl) ;;
      Says (Uses n_v1_fail) ;;
      Says (Uses n_v1_error_index_out_of_range) ;;
      Needs BOOST_METAPARSE_LIMIT_SEQUENCE_SIZE ;;
      Needs BOOST_METAPARSE_NTH_OF_CASE ;;
      Undef BOOST_METAPARSE_NTH_OF_CASE ;;
      Done))
    (Done) Done.
(** include/boost/metaparse/v1/cpp98/nth_of_c.hpp:1-70 *)
Definition c_v1_cpp98_nth_of_c : code :=
  If (Not (Defined BOOST_METAPARSE_V1_CPP98_NTH_OF_C_HPP))
    (Define BOOST_METAPARSE_V1_CPP98_NTH_OF_C_HPP 0 ;;
      Include h_v1_cpp98_impl_nth_of_c ;;
      Include h_limit_sequence_size ;;
      Needs BOOST_METAPARSE_LIMIT_SEQUENCE_SIZE ;;
      Says (Declares n_v1_nth_of_c) ;;
      If (Defined BOOST_METAPARSE_NTH_OF_N)
        (Error ;;
          Done)
        (Done)
      (Define BOOST_METAPARSE_NTH_OF_N 0 ;;
      Says (Uses n_v1_nth_of_c) ;;
      Needs BOOST_METAPARSE_NTH_OF_N ;;
      Undef BOOST_METAPARSE_NTH_OF_N ;;
      Done))
    (Done) Done.
(** include/boost/metaparse/v1/cpp98/first_of.hpp:1-35 *)
Definition c_v1_cpp98_first_of : code :=
  If (Not (Defined BOOST_METAPARSE_V1_CPP98_FIRST_OF_HPP))
    (Define BOOST_METAPARSE_V1_CPP98_FIRST_OF_HPP 0 ;;
      Include h_v1_cpp98_nth_of_c ;;
      Needs BOOST_METAPARSE_LIMIT_SEQUENCE_SIZE ;;
      Says (Defines n_v1_first_of) ;;
      Says (Uses n_v1_nth_of_c) ;;
      Done)
    (Done) Done.
(** include/boost/metaparse/v1/first_of.hpp:1-18 *)
Definition c_v1_first_of : code :=
  If (Not (Defined BOOST_METAPARSE_V1_FIRST_OF_HPP))
    (Define BOOST_METAPARSE_V1_FIRST_OF_HPP 0 ;;
      Include h_config ;;
      If (AtLeast BOOST_METAPARSE_STD 2011)
        (Include h_v1_cpp11_first_of ;;
          Done)
        (Include h_v1_cpp98_first_of ;;
          Done) Done)
    (Done) Done.
(** include/boost/metaparse/v1/entire_input.hpp:1-33 *)
Definition c_v1_entire_input : code :=
  If (Not (Defined BOOST_METAPARSE_V1_ENTIRE_INPUT_HPP))
    (Define BOOST_METAPARSE_V1_ENTIRE_INPUT_HPP 0 ;;
      Include h_v1_first_of ;;
      Include h_v1_empty ;;
      Include h_v1_change_error_message ;;
      Says (Uses n_v1_error_end_of_input_expected) ;;
      Says (Defines n_v1_entire_input) ;;
      Says (Uses n_v1_first_of) ;;
      Says (Uses n_v1_change_error_message) ;;
      Says (Uses n_v1_empty) ;;
      Says (Uses n_v1_entire_input) ;;
      Done)
    (Done) Done.
(** include/boost/metaparse/entire_input.hpp:1-20 *)
Definition c_entire_input : code :=
  If (Not (Defined BOOST_METAPARSE_ENTIRE_INPUT_HPP))
    (Define BOOST_METAPARSE_ENTIRE_INPUT_HPP 0 ;;
      Include h_v1_entire_input ;;
      Says (Uses n_v1_entire_input) ;;
      Says (Declares n_entire_input) ;;
      Done)
    (Done) Done.
(** include/boost/metaparse/error/digit_expected.hpp:1-23 *)
Definition c_error_digit_expected : code :=
  If (Not (Defined BOOST_METAPARSE_ERROR_DIGIT_EXPECTED_HPP))
    (Define BOOST_METAPARSE_ERROR_DIGIT_EXPECTED_HPP 0 ;;
      Include h_v1_error_digit_expected ;;
      Says (Uses n_v1_error_digit_expected) ;;
      Says (Declares n_error_digit_expected) ;;
      Done)
    (Done) Done.
(** include/boost/metaparse/error/end_of_input_expected.hpp:1-23 *)
Definition c_error_end_of_input_expected : code :=
  If (Not (Defined BOOST_METAPARSE_END_OF_INPUT_EXPECTED_HPP))
    (Define BOOST_METAPARSE_END_OF_INPUT_EXPECTED_HPP 0 ;;
      Include h_v1_error_end_of_input_expected ;;
      Says (Uses n_v1_error_end_of_input_expected) ;;
      Says (Declares n_error_end_of_input_expected) ;;
      Done)
    (Done) Done.
(** include/boost/metaparse/error/index_out_of_range.hpp:1-23 *)
Definition c_error_index_out_of_range : code :=
  If (Not (Defined BOOST_METAPARSE_ERROR_INDEX_OUT_OF_RANGE_HPP))
    (Define BOOST_METAPARSE_ERROR_INDEX_OUT_OF_RANGE_HPP 0 ;;
      Include h_v1_error_index_out_of_range ;;
      Says (Uses n_v1_error_index_out_of_range) ;;
      Says (Declares n_error_index_out_of_range) ;;
      Done)
    (Done) Done.
(** include/boost/metaparse/error/letter_expected.hpp:1-23 *)
Definition c_error_letter_expected : code :=
  If (Not (Defined BOOST_METAPARSE_ERROR_LETTER_EXPECTED_HPP))
    (Define BOOST_METAPARSE_ERROR_LETTER_EXPECTED_HPP 0 ;;
      Include h_v1_error_letter_expected ;;
      Says (Uses n_v1_error_letter_expected) ;;
      Says (Declares n_error_letter_expected) ;;
      Done)
    (Done) Done.
(** include/boost/metaparse/error/literal_expected.hpp:1-24 *)
Definition c_error_literal_expected : code :=
  If (Not (Defined BOOST_METAPARSE_ERROR_LITERAL_EXPECTED_HPP))
    (Define BOOST_METAPARSE_ERROR_LITERAL_EXPECTED_HPP 0 ;;
      Include h_v1_error_literal_expected ;;
      Says (Uses n_v1_error_literal_expected) ;;
      Says (Declares n_error_literal_expected) ;;
      Done)
    (Done) Done.
(** include/boost/metaparse/error/none_of_the_expected_cases_found.hpp:1-23 *)
Definition c_error_none_of_the_expected_cases_found : code :=
  If (Not (Defined BOOST_METAPARSE_ERROR_NONE_OF_THE_EXPECTED_CASES_FOUND_HPP))
    (Define BOOST_METAPARSE_ERROR_NONE_OF_THE_EXPECTED_CASES_FOUND_HPP 0 ;;
      Include h_v1_error_none_of_the_expected_cases_found ;;
      Says (Uses n_v1_error_none_of_the_expected_cases_found) ;;
      Says (Declares n_error_none_of_the_expected_cases_found) ;;
      Done)
    (Done) Done.
(** include/boost/metaparse/v1/error/unexpected_character.hpp:1-29 *)
Definition c_v1_error_unexpected_character : code :=
  If (Not (Defined BOOST_METAPARSE_V1_ERROR_UNEXPECTED_CHARACTER_HPP))
    (Define BOOST_METAPARSE_V1_ERROR_UNEXPECTED_CHARACTER_HPP 0 ;;
      Include h_v1_define_error ;;
      Needs BOOST_METAPARSE_V1_DEFINE_ERROR ;;
      Says (Defines n_v1_error_unexpected_character) ;;
      Done)
    (Done) Done.
(** include/boost/metaparse/error/unexpected_character.hpp:1-23 *)
Definition c_error_unexpected_character : code :=
  If (Not (Defined BOOST_METAPARSE_ERROR_UNEXPECTED_CHARACTER_HPP))
    (Define BOOST_METAPARSE_ERROR_UNEXPECTED_CHARACTER_HPP 0 ;;
      Include h_v1_error_unexpected_character ;;
      Says (Uses n_v1_error_unexpected_character) ;;
      Says (Declares n_error_unexpected_character) ;;
      Done)
    (Done) Done.
(** include/boost/metaparse/error/unexpected_end_of_input.hpp:1-24 *)
Definition c_error_unexpected_end_of_input : code :=
  If (Not (Defined BOOST_METAPARSE_ERROR_UNEXPECTED_END_OF_INPUT_HPP))
    (Define BOOST_METAPARSE_ERROR_UNEXPECTED_END_OF_INPUT_HPP 0 ;;
      Include h_v1_error_unexpected_end_of_input ;;
      Says (Uses n_v1_error_unexpected_end_of_input) ;;
      Says (Declares n_error_unexpected_end_of_input) ;;
      Done)
    (Done) Done.
(** include/boost/metaparse/v1/error/unpaired.hpp:1-50 *)
Definition c_v1_error_unpaired : code :=
  If (Not (Defined BOOST_METAPARSE_V1_ERROR_UNPAIRED_HPP))
    (Define BOOST_METAPARSE_V1_ERROR_UNPAIRED_HPP 0 ;;
      Says (Defines n_v1_error_unpaired) ;;
      Says (Uses n_v1_error_unpaired) ;;
      Done)
    (Done) Done.
(** include/boost/metaparse/error/unpaired.hpp:1-23 *)
Definition c_error_unpaired : code :=
  If (Not (Defined BOOST_METAPARSE_ERROR_UNPAIRED_HPP))
    (Define BOOST_METAPARSE_ERROR_UNPAIRED_HPP 0 ;;
      Include h_v1_error_unpaired ;;
      Says (Uses n_v1_error_unpaired) ;;
      Says (Declares n_error_unpaired) ;;
      Done)
    (Done) Done.
(** include/boost/metaparse/v1/error/whitespace_expected.hpp:1-30 *)
Definition c_v1_error_whitespace_expected : code :=
  If (Not (Defined BOOST_METAPARSE_V1_ERROR_WHITESPACE_EXPECTED_HPP))
    (Define BOOST_METAPARSE_V1_ERROR_WHITESPACE_EXPECTED_HPP 0 ;;
      Include h_v1_define_error ;;
      Needs BOOST_METAPARSE_V1_DEFINE_ERROR ;;
      Says (Defines n_v1_error_whitespace_expected) ;;
      Done)
    (Done) Done.
(** include/boost/metaparse/error/whitespace_expected.hpp:1-24 *)
Definition c_error_whitespace_expected : code :=
  If (Not (Defined BOOST_METAPARSE_ERROR_WHITESPACE_EXPECTED_HPP))
    (Define BOOST_METAPARSE_ERROR_WHITESPACE_EXPECTED_HPP 0 ;;
      Include h_v1_error_whitespace_expected ;;
      Says (Uses n_v1_error_whitespace_expected) ;;
      Says (Declares n_error_whitespace_expected) ;;
      Done)
    (Done) Done.
(** include/boost/metaparse/v1/except.hpp:1-40 *)
Definition c_v1_except : code :=
  If (Not (Defined BOOST_METAPARSE_V1_EXCEPT_HPP))
    (Define BOOST_METAPARSE_V1_EXCEPT_HPP 0 ;;
      Include h_v1_is_error ;;
      Include h_v1_accept ;;
      Include h_v1_reject ;;
      Says (Defines n_v1_except) ;;
      Says (Uses n_v1_except) ;;
      Says (Uses n_v1_is_error) ;;
      Says (Uses n_v1_accept) ;;
      Says (Uses n_v1_reject) ;;
      Done)
    (Done) Done.
(** include/boost/metaparse/except.hpp:1-20 *)
Definition c_except : code :=
  If (Not (Defined BOOST_METAPARSE_EXCEPT_HPP))
    (Define BOOST_METAPARSE_EXCEPT_HPP 0 ;;
      Include h_v1_except ;;
      Says (Uses n_v1_except) ;;
      Says (Declares n_except) ;;
      Done)
    (Done) Done.
(** include/boost/metaparse/fail_at_first_char_expected.hpp:1-20 *)
Definition c_fail_at_first_char_expected : code :=
  If (Not (Defined BOOST_METAPARSE_FAIL_AT_FIRST_CHAR_EXPECTED_HPP))
    (Define BOOST_METAPARSE_FAIL_AT_FIRST_CHAR_EXPECTED_HPP 0 ;;
      Include h_v1_fail_at_first_char_expected ;;
      Says (Uses n_v1_fail_at_first_char_expected) ;;
      Says (Declares n_fail_at_first_char_expected) ;;
      Done)
    (Done) Done.
(** include/boost/metaparse/fail.hpp:1-20 *)
Definition c_fail : code :=
  If (Not (Defined BOOST_METAPARSE_FAIL_HPP))
    (Define BOOST_METAPARSE_FAIL_HPP 0 ;;
      Include h_v1_fail ;;
      Says (Uses n_v1_fail) ;;
      Says (Declares n_fail) ;;
      Done)
    (Done) Done.
(** include/boost/metaparse/fail_tag.hpp:1-21 *)
Definition c_fail_tag : code :=
  If (Not (Defined BOOST_METAPARSE_FAIL_TAG_HPP))
    (Define BOOST_METAPARSE_FAIL_TAG_HPP 0 ;;
      Include h_v1_fail_tag ;;
      Says (Uses n_v1_fail_tag) ;;
      Says (Declares n_fail_tag) ;;
      Done)
    (Done) Done.
(** include/boost/metaparse/first_of.hpp:1-20 *)
Definition c_first_of : code :=
  If (Not (Defined BOOST_METAPARSE_FIRST_OF_HPP))
    (Define BOOST_METAPARSE_FIRST_OF_HPP 0 ;;
      Include h_v1_first_of ;;
      Says (Uses n_v1_first_of) ;;
      Says (Declares n_first_of) ;;
      Done)
    (Done) Done.
(** include/boost/metaparse/foldl1.hpp:1-20 *)
Definition c_foldl1 : code :=
  If (Not (Defined BOOST_METAPARSE_FOLDL1_HPP))
    (Define BOOST_METAPARSE_FOLDL1_HPP 0 ;;
      Include h_v1_foldl1 ;;
      Says (Uses n_v1_foldl1) ;;
      Says (Declares n_foldl1) ;;
      Done)
    (Done) Done.
(** include/boost/metaparse/foldl_reject_incomplete.hpp:1-20 *)
Definition c_foldl_reject_incomplete : code :=
  If (Not (Defined BOOST_METAPARSE_FOLDL_REJECT_INCOMPLETE_HPP))
    (Define BOOST_METAPARSE_FOLDL_REJECT_INCOMPLETE_HPP 0 ;;
      Include h_v1_foldl_reject_incomplete ;;
      Says (Uses n_v1_foldl_reject_incomplete) ;;
      Says (Declares n_foldl_reject_incomplete) ;;
      Done)
    (Done) Done.
(** include/boost/metaparse/foldl_reject_incomplete1.hpp:1-20 *)
Definition c_foldl_reject_incomplete1 : code :=
  If (Not (Defined BOOST_METAPARSE_FOLDL_REJECT_INCOMPLETE1_HPP))
    (Define BOOST_METAPARSE_FOLDL_REJECT_INCOMPLETE1_HPP 0 ;;
      Include h_v1_foldl_reject_incomplete1 ;;
      Says (Uses n_v1_foldl_reject_incomplete1) ;;
      Says (Declares n_foldl_reject_incomplete1) ;;
      Done)
    (Done) Done.
(** include/boost/metaparse/v1/foldl_reject_incomplete_start_with_parser.hpp:1-55 *)
Definition c_v1_foldl_reject_incomplete_start_with_parser : code :=
  If (Not (Defined BOOST_METAPARSE_V1_FOLDL_REJECT_INCOMPLETE_START_WITH_PARSER_HPP))
    (Define BOOST_METAPARSE_V1_FOLDL_REJECT_INCOMPLETE_START_WITH_PARSER_HPP 0 ;;
      Include h_v1_foldl_reject_incomplete ;;
      Include h_v1_get_remaining ;;
      Include h_v1_get_position ;;
      Include h_v1_get_result ;;
      Include h_v1_is_error ;;
      Says (Defines n_v1_foldl_reject_incomplete_start_with_parser) ;;
      Says (Uses n_v1_foldl_reject_incomplete) ;;
      Says (Uses n_v1_get_result) ;;
      Says (Uses n_v1_get_remaining) ;;
      Says (Uses n_v1_get_position) ;;
      Says (Uses n_v1_foldl_reject_incomplete_start_with_parser) ;;
      Says (Uses n_v1_is_error) ;;
      Done)
    (Done) Done.
(** include/boost/metaparse/foldl_reject_incomplete_start_with_parser.hpp:1-20 *)
Definition c_foldl_reject_incomplete_start_with_parser : code :=
  If (Not (Defined BOOST_METAPARSE_FOLDL_REJECT_INCOMPLETE_START_WITH_PARSER_HPP))
    (Define BOOST_METAPARSE_FOLDL_REJECT_INCOMPLETE_START_WITH_PARSER_HPP 0 ;;
      Include h_v1_foldl_reject_incomplete_start_with_parser ;;
      Says (Uses n_v1_foldl_reject_incomplete_start_with_parser) ;;
      Says (Declares n_foldl_reject_incomplete_start_with_parser) ;;
      Done)
    (Done) Done.
(** include/boost/metaparse/foldl.hpp:1-20 *)
Definition c_foldl : code :=
  If (Not (Defined BOOST_METAPARSE_FOLDL_HPP))
    (Define BOOST_METAPARSE_FOLDL_HPP 0 ;;
      Include h_v1_foldl ;;
      Says (Uses n_v1_foldl) ;;
      Says (Declares n_foldl) ;;
      Done)
    (Done) Done.
(** include/boost/metaparse/v1/foldl_start_with_parser.hpp:1-45 *)
Definition c_v1_foldl_start_with_parser : code :=
  If (Not (Defined BOOST_METAPARSE_V1_FOLDL_START_WITH_PARSER_HPP))
    (Define BOOST_METAPARSE_V1_FOLDL_START_WITH_PARSER_HPP 0 ;;
      Include h_v1_foldl ;;
      Says (Defines n_v1_foldl_start_with_parser) ;;
      Says (Uses n_v1_foldl) ;;
      Says (Uses n_v1_get_result) ;;
      Says (Uses n_v1_get_remaining) ;;
      Says (Uses n_v1_get_position) ;;
      Says (Uses n_v1_foldl_start_with_parser) ;;
      Says (Uses n_v1_is_error) ;;
      Done)
    (Done) Done.
(** include/boost/metaparse/foldl_start_with_parser.hpp:1-20 *)
Definition c_foldl_start_with_parser : code :=
  If (Not (Defined BOOST_METAPARSE_FOLDL_START_WITH_PARSER_HPP))
    (Define BOOST_METAPARSE_FOLDL_START_WITH_PARSER_HPP 0 ;;
      Include h_v1_foldl_start_with_parser ;;
      Says (Uses n_v1_foldl_start_with_parser) ;;
      Says (Declares n_foldl_start_with_parser) ;;
      Done)
    (Done) Done.
(** include/boost/metaparse/v1/foldr_start_with_parser.hpp:1-78 *)
Definition c_v1_foldr_start_with_parser : code :=
  If (Not (Defined BOOST_METAPARSE_V1_FOLDR_START_WITH_PARSER_HPP))
    (Define BOOST_METAPARSE_V1_FOLDR_START_WITH_PARSER_HPP 0 ;;
      Include h_v1_accept ;;
      Include h_v1_is_error ;;
      Include h_v1_get_position ;;
      Include h_v1_get_result ;;
      Include h_v1_get_remaining ;;
      Says (Defines n_v1_foldr_start_with_parser) ;;
      Says (Uses n_v1_accept) ;;
      Says (Uses n_v1_get_result) ;;
      Says (Uses n_v1_get_remaining) ;;
      Says (Uses n_v1_get_position) ;;
      Says (Uses n_v1_foldr_start_with_parser) ;;
      Says (Uses n_v1_is_error) ;;
      Done)
    (Done) Done.
(** include/boost/metaparse/v1/foldr.hpp:1-25 *)
Definition c_v1_foldr : code :=
  If (Not (Defined BOOST_METAPARSE_V1_FOLDR_HPP))
    (Define BOOST_METAPARSE_V1_FOLDR_HPP 0 ;;
      Include h_v1_return_ ;;
      Include h_v1_foldr_start_with_parser ;;
      Says (Defines n_v1_foldr) ;;
      Says (Uses n_v1_foldr_start_with_parser) ;;
      Says (Uses n_v1_return_) ;;
      Done)
    (Done) Done.
(** include/boost/metaparse/v1/foldr1.hpp:1-38 *)
Definition c_v1_foldr1 : code :=
  If (Not (Defined BOOST_METAPARSE_V1_FOLDR1_HPP))
    (Define BOOST_METAPARSE_V1_FOLDR1_HPP 0 ;;
      Include h_v1_foldr ;;
      Says (Defines n_v1_foldr1) ;;
      Says (Uses n_v1_foldr1) ;;
      Says (Uses n_v1_is_error) ;;
      Says (Uses n_v1_foldr) ;;
      Done)
    (Done) Done.
(** include/boost/metaparse/foldr1.hpp:1-20 *)
Definition c_foldr1 : code :=
  If (Not (Defined BOOST_METAPARSE_FOLDR1_HPP))
    (Define BOOST_METAPARSE_FOLDR1_HPP 0 ;;
      Include h_v1_foldr1 ;;
      Says (Uses n_v1_foldr1) ;;
      Says (Declares n_foldr1) ;;
      Done)
    (Done) Done.
(** include/boost/metaparse/v1/foldr_reject_incomplete.hpp:1-33 *)
Definition c_v1_foldr_reject_incomplete : code :=
  If (Not (Defined BOOST_METAPARSE_V1_FOLDR_REJECT_INCOMPLETE_HPP))
    (Define BOOST_METAPARSE_V1_FOLDR_REJECT_INCOMPLETE_HPP 0 ;;
      Include h_v1_return_ ;;
      Include h_v1_foldr_start_with_parser ;;
      Include h_v1_first_of ;;
      Include h_v1_fail_at_first_char_expected ;;
      Says (Defines n_v1_foldr_reject_incomplete) ;;
      Says (Uses n_v1_foldr_start_with_parser) ;;
      Says (Uses n_v1_first_of) ;;
      Says (Uses n_v1_return_) ;;
      Says (Uses n_v1_fail_at_first_char_expected) ;;
      Done)
    (Done) Done.
(** include/boost/metaparse/foldr_reject_incomplete.hpp:1-20 *)
Definition c_foldr_reject_incomplete : code :=
  If (Not (Defined BOOST_METAPARSE_FOLDR_REJECT_INCOMPLETE_HPP))
    (Define BOOST_METAPARSE_FOLDR_REJECT_INCOMPLETE_HPP 0 ;;
      Include h_v1_foldr_reject_incomplete ;;
      Says (Uses n_v1_foldr_reject_incomplete) ;;
      Says (Declares n_foldr_reject_incomplete) ;;
      Done)
    (Done) Done.
(** include/boost/metaparse/v1/foldr_reject_incomplete1.hpp:1-38 *)
Definition c_v1_foldr_reject_incomplete1 : code :=
  If (Not (Defined BOOST_METAPARSE_V1_FOLDR_REJECT_INCOMPLETE1_HPP))
    (Define BOOST_METAPARSE_V1_FOLDR_REJECT_INCOMPLETE1_HPP 0 ;;
      Include h_v1_foldr_reject_incomplete ;;
      Says (Defines n_v1_foldr_reject_incomplete1) ;;
      Says (Uses n_v1_foldr_reject_incomplete1) ;;
      Says (Uses n_v1_is_error) ;;
      Says (Uses n_v1_foldr_reject_incomplete) ;;
      Done)
    (Done) Done.
(** include/boost/metaparse/foldr_reject_incomplete1.hpp:1-20 *)
Definition c_foldr_reject_incomplete1 : code :=
  If (Not (Defined BOOST_METAPARSE_FOLDR_REJECT_INCOMPLETE1_HPP))
    (Define BOOST_METAPARSE_FOLDR_REJECT_INCOMPLETE1_HPP 0 ;;
      Include h_v1_foldr_reject_incomplete1 ;;
      Says (Uses n_v1_foldr_reject_incomplete1) ;;
      Says (Declares n_foldr_reject_incomplete1) ;;
      Done)
    (Done) Done.
(** include/boost/metaparse/foldr.hpp:1-20 *)
Definition c_foldr : code :=
  If (Not (Defined BOOST_METAPARSE_FOLDR_HPP))
    (Define BOOST_METAPARSE_FOLDR_HPP 0 ;;
      Include h_v1_foldr ;;
      Says (Uses n_v1_foldr) ;;
      Says (Declares n_foldr) ;;
      Done)
    (Done) Done.
(** include/boost/metaparse/foldr_start_with_parser.hpp:1-20 *)
Definition c_foldr_start_with_parser : code :=
  If (Not (Defined BOOST_METAPARSE_FOLDR_START_WITH_PARSER_HPP))
    (Define BOOST_METAPARSE_FOLDR_START_WITH_PARSER_HPP 0 ;;
      Include h_v1_foldr_start_with_parser ;;
      Says (Uses n_v1_foldr_start_with_parser) ;;
      Says (Declares n_foldr_start_with_parser) ;;
      Done)
    (Done) Done.
(** include/boost/metaparse/get_col.hpp:1-20 *)
Definition c_get_col : code :=
  If (Not (Defined BOOST_METAPARSE_GET_COL_HPP))
    (Define BOOST_METAPARSE_GET_COL_HPP 0 ;;
      Include h_v1_get_col ;;
      Says (Uses n_v1_get_col) ;;
      Says (Declares n_get_col) ;;
      Done)
    (Done) Done.
(** include/boost/metaparse/get_line.hpp:1-20 *)
Definition c_get_line : code :=
  If (Not (Defined BOOST_METAPARSE_GET_LINE_HPP))
    (Define BOOST_METAPARSE_GET_LINE_HPP 0 ;;
      Include h_v1_get_line ;;
      Says (Uses n_v1_get_line) ;;
      Says (Declares n_get_line) ;;
      Done)
    (Done) Done.
(** include/boost/metaparse/get_message.hpp:1-20 *)
Definition c_get_message : code :=
  If (Not (Defined BOOST_METAPARSE_GET_MESSAGE_HPP))
    (Define BOOST_METAPARSE_GET_MESSAGE_HPP 0 ;;
      Include h_v1_get_message ;;
      Says (Uses n_v1_get_message) ;;
      Says (Declares n_get_message) ;;
      Done)
    (Done) Done.
(** include/boost/metaparse/get_position.hpp:1-20 *)
Definition c_get_position : code :=
  If (Not (Defined BOOST_METAPARSE_GET_POSITION_HPP))
    (Define BOOST_METAPARSE_GET_POSITION_HPP 0 ;;
      Include h_v1_get_position ;;
      Says (Uses n_v1_get_position) ;;
      Says (Declares n_get_position) ;;
      Done)
    (Done) Done.
(** include/boost/metaparse/get_prev_char.hpp:1-20 *)
Definition c_get_prev_char : code :=
  If (Not (Defined BOOST_METAPARSE_GET_PREV_CHAR_HPP))
    (Define BOOST_METAPARSE_GET_PREV_CHAR_HPP 0 ;;
      Include h_v1_get_prev_char ;;
      Says (Uses n_v1_get_prev_char) ;;
      Says (Declares n_get_prev_char) ;;
      Done)
    (Done) Done.
(** include/boost/metaparse/get_remaining.hpp:1-20 *)
Definition c_get_remaining : code :=
  If (Not (Defined BOOST_METAPARSE_GET_REMAINING_HPP))
    (Define BOOST_METAPARSE_GET_REMAINING_HPP 0 ;;
      Include h_v1_get_remaining ;;
      Says (Uses n_v1_get_remaining) ;;
      Says (Declares n_get_remaining) ;;
      Done)
    (Done) Done.
(** include/boost/metaparse/get_result.hpp:1-20 *)
Definition c_get_result : code :=
  If (Not (Defined BOOST_METAPARSE_GET_RESULT_HPP))
    (Define BOOST_METAPARSE_GET_RESULT_HPP 0 ;;
      Include h_v1_get_result ;;
      Says (Uses n_v1_get_result) ;;
      Says (Declares n_get_result) ;;
      Done)
    (Done) Done.
(** include/boost/metaparse/v1/cpp11/impl/push_front_result.hpp:1-36 *)
Definition c_v1_cpp11_impl_push_front_result : code :=
  If (Not (Defined BOOST_METAPARSE_V1_CPP11_IMPL_PUSH_FRONT_RESULT_HPP))
    (Define BOOST_METAPARSE_V1_CPP11_IMPL_PUSH_FRONT_RESULT_HPP 0 ;;
      Include h_v1_get_result ;;
      Says (Defines n_v1_impl_push_front_result) ;;
      Says (Uses n_v1_impl_push_front_result) ;;
      Says (Uses n_v1_get_result) ;;
      Done)
    (Done) Done.
(** include/boost/metaparse/v1/cpp11/sequence.hpp:1-62 *)
Definition c_v1_cpp11_sequence : code :=
  If (Not (Defined BOOST_METAPARSE_V1_CPP11_SEQUENCE_HPP))
    (Define BOOST_METAPARSE_V1_CPP11_SEQUENCE_HPP 0 ;;
      Include h_v1_cpp11_impl_push_front_result ;;
      Include h_v1_get_remaining ;;
      Include h_v1_get_position ;;
      Include h_v1_is_error ;;
      Include h_v1_return_ ;;
      Include h_v1_transform ;;
      Says (Declares n_v1_sequence) ;;
      Says (Uses n_v1_sequence) ;;
      Says (Uses n_v1_return_) ;;
      Says (Uses n_v1_transform) ;;
      Says (Uses n_v1_impl_push_front_result) ;;
      Says (Uses n_v1_get_remaining) ;;
      Says (Uses n_v1_get_position) ;;
      Says (Uses n_v1_is_error) ;;
      Done)
    (Done) Done.
(** include/boost/metaparse/v1/impl/apply_parser.hpp:1-63 *)
Definition c_v1_impl_apply_parser : code :=
  If (Not (Defined BOOST_METAPARSE_V1_IMPL_APPLY_PARSER_HPP))
    (Define BOOST_METAPARSE_V1_IMPL_APPLY_PARSER_HPP 0 ;;
      Include h_v1_unless_error ;;
      Include h_v1_get_result ;;
      Include h_v1_get_remaining ;;
      Include h_v1_get_position ;;
      Include h_v1_transform ;;
      Says (Defines n_v1_impl_apply_parser) ;;
      Says (Uses n_v1_transform) ;;
      Says (Uses n_v1_unless_error) ;;
      Says (Uses n_v1_get_result) ;;
      Says (Uses n_v1_get_remaining) ;;
      Says (Uses n_v1_get_position) ;;
      Done)
    (Done) Done.
(** include/boost/metaparse/v1/cpp98/impl/sequence_impl.hpp:1-37 *)
Definition c_v1_cpp98_impl_sequence_impl : code :=
  If (Not (Defined BOOST_METAPARSE_V1_CPP98_IMPL_SEQUENCE_IMPL_HPP))
    (Define BOOST_METAPARSE_V1_CPP98_IMPL_SEQUENCE_IMPL_HPP 0 ;;
      Include h_v1_impl_apply_parser ;;
      Include h_v1_accept ;;
      Says (Defines n_v1_impl_sequence_impl) ;;
      Says (Uses n_v1_accept) ;;
      Says (Uses n_v1_impl_apply_parser) ;;
      Done)
    (Done) Done.
(** include/boost/metaparse/v1/cpp98/impl/sequence.hpp:1-59 *)
Definition c_v1_cpp98_impl_sequence : code :=
  If (Not (Defined BOOST_METAPARSE_V1_CPP98_IMPL_SEQUENCE_HPP))
    (Define BOOST_METAPARSE_V1_CPP98_IMPL_SEQUENCE_HPP 0 ;;
      Include h_v1_cpp98_impl_sequence_impl ;;
      Include h_limit_sequence_size ;;
      If (Defined BOOST_METAPARSE_SEQUENCE_CASE)
        (Error ;;
          Done)
        (Done)
      (Define BOOST_METAPARSE_SEQUENCE_CASE 0 ;;
      Says (Defines n_v1_impl_sequence_N) ;;
      Says (Uses n_v1_impl_sequence_N) ;;
      Says (Uses n_v1_impl_sequence_impl) ;;
      Needs BOOST_METAPARSE_LIMIT_SEQUENCE_SIZE ;;
      Needs BOOST_METAPARSE_SEQUENCE_CASE ;;
      Undef BOOST_METAPARSE_SEQUENCE_CASE ;;
      Done))
    (Done) Done.
(** include/boost/metaparse/v1/cpp98/sequence.hpp:1-64 *)
Definition c_v1_cpp98_sequence : code :=
  If (Not (Defined BOOST_METAPARSE_V1_CPP98_SEQUENCE_HPP))
    (Define BOOST_METAPARSE_V1_CPP98_SEQUENCE_HPP 0 ;;
      Include h_v1_cpp98_impl_sequence ;;
      Needs BOOST_METAPARSE_LIMIT_SEQUENCE_SIZE ;;
      Says (Declares n_v1_sequence) ;;
      If (Defined BOOST_METAPARSE_SEQUENCE_N)
        (Error ;;
          Done)
        (Done)
      (Define BOOST_METAPARSE_SEQUENCE_N 0 ;;
      Says (Uses n_v1_sequence) ;;
      Needs BOOST_METAPARSE_SEQUENCE_N ;;
      Undef BOOST_METAPARSE_SEQUENCE_N ;;
      Done))
    (Done) Done.
(** include/boost/metaparse/v1/sequence.hpp:1-18 *)
Definition c_v1_sequence : code :=
  If (Not (Defined BOOST_METAPARSE_V1_SEQUENCE_HPP))
    (Define BOOST_METAPARSE_V1_SEQUENCE_HPP 0 ;;
      Include h_config ;;
      If (AtLeast BOOST_METAPARSE_STD 2011)
        (Include h_v1_cpp11_sequence ;;
          Done)
        (Include h_v1_cpp98_sequence ;;
          Done) Done)
    (Done) Done.
(** include/boost/metaparse/v1/lit.hpp:1-24 *)
Definition c_v1_lit : code :=
  If (Not (Defined BOOST_METAPARSE_V1_LIT_HPP))
    (Define BOOST_METAPARSE_V1_LIT_HPP 0 ;;
      Include h_v1_lit_c ;;
      Says (Defines n_v1_lit) ;;
      Says (Uses n_v1_lit_c) ;;
      Done)
    (Done) Done.
(** include/boost/metaparse/v1/util/is_whitespace_c.hpp:1-32 *)
Definition c_v1_util_is_whitespace_c : code :=
  If (Not (Defined BOOST_METAPARSE_V1_UTIL_IS_WHITESPACE_C_HPP))
    (Define BOOST_METAPARSE_V1_UTIL_IS_WHITESPACE_C_HPP 0 ;;
      Says (Defines n_v1_util_is_whitespace_c) ;;
      Says (Uses n_v1_util_is_whitespace_c) ;;
      Done)
    (Done) Done.
(** include/boost/metaparse/v1/util/is_whitespace.hpp:1-38 *)
Definition c_v1_util_is_whitespace : code :=
  If (Not (Defined BOOST_METAPARSE_V1_UTIL_IS_WHITESPACE_HPP))
    (Define BOOST_METAPARSE_V1_UTIL_IS_WHITESPACE_HPP 0 ;;
      Include h_v1_util_is_whitespace_c ;;
      Says (Defines n_v1_util_is_whitespace) ;;
      Says (Uses n_v1_util_is_whitespace_c) ;;
      Says (Uses n_v1_util_is_whitespace) ;;
      Done)
    (Done) Done.
(** include/boost/metaparse/v1/space.hpp:1-30 *)
Definition c_v1_space : code :=
  If (Not (Defined BOOST_METAPARSE_V1_SPACE_HPP))
    (Define BOOST_METAPARSE_V1_SPACE_HPP 0 ;;
      Include h_v1_error_whitespace_expected ;;
      Include h_v1_accept_when ;;
      Include h_v1_one_char ;;
      Include h_v1_util_is_whitespace ;;
      Says (Uses n_v1_accept_when) ;;
      Says (Uses n_v1_one_char) ;;
      Says (Uses n_v1_util_is_whitespace) ;;
      Says (Uses n_v1_error_whitespace_expected) ;;
      Says (Defines n_v1_space) ;;
      Done)
    (Done) Done.
(** include/boost/metaparse/v1/token.hpp:1-28 *)
Definition c_v1_token : code :=
  If (Not (Defined BOOST_METAPARSE_V1_TOKEN_HPP))
    (Define BOOST_METAPARSE_V1_TOKEN_HPP 0 ;;
      Include h_v1_space ;;
      Include h_v1_repeated ;;
      Include h_v1_first_of ;;
      Says (Defines n_v1_token) ;;
      Says (Uses n_v1_first_of) ;;
      Says (Uses n_v1_repeated) ;;
      Says (Uses n_v1_space) ;;
      Done)
    (Done) Done.
(** include/boost/metaparse/v1/keyword.hpp:1-82 *)
Definition c_v1_keyword : code :=
  If (Not (Defined BOOST_METAPARSE_V1_KEYWORD_HPP))
    (Define BOOST_METAPARSE_V1_KEYWORD_HPP 0 ;;
      Include h_v1_impl_void_ ;;
      Include h_v1_lit ;;
      Include h_v1_return_ ;;
      Include h_v1_is_error ;;
      Include h_v1_get_remaining ;;
      Include h_v1_get_position ;;
      Says (Uses n_v1_impl_void_) ;;
      Says (Defines n_v1_keyword) ;;
      Says (Uses n_v1_lit) ;;
      Says (Uses n_v1_keyword) ;;
      Says (Uses n_v1_get_remaining) ;;
      Says (Uses n_v1_get_position) ;;
      Says (Uses n_v1_is_error) ;;
      Says (Uses n_v1_return_) ;;
      Done)
    (Done) Done.
(** include/boost/metaparse/v1/cpp11/nth_of_c.hpp:1-45 *)
Definition c_v1_cpp11_nth_of_c : code :=
  If (Not (Defined BOOST_METAPARSE_V1_CPP11_NTH_OF_C_HPP))
    (Define BOOST_METAPARSE_V1_CPP11_NTH_OF_C_HPP 0 ;;
      Include h_v1_cpp11_impl_nth_of_c ;;
      Include h_v1_fail ;;
      Include h_v1_error_index_out_of_range ;;
      Says (Defines n_v1_nth_of_c) ;;
      Says (Uses n_v1_nth_of_c) ;;
      Says (Uses n_v1_impl_nth_of_c) ;;
      Says (Uses n_v1_fail) ;;
      Says (Uses n_v1_error_index_out_of_range) ;;
      Done)
    (Done) Done.
(** include/boost/metaparse/v1/nth_of_c.hpp:1-18 *)
Definition c_v1_nth_of_c : code :=
  If (Not (Defined BOOST_METAPARSE_V1_NTH_OF_C_HPP))
    (Define BOOST_METAPARSE_V1_NTH_OF_C_HPP 0 ;;
      Include h_config ;;
      If (AtLeast BOOST_METAPARSE_STD 2011)
        (Include h_v1_cpp11_nth_of_c ;;
          Done)
        (Include h_v1_cpp98_nth_of_c ;;
          Done) Done)
    (Done) Done.
(** include/boost/metaparse/v1/cpp11/nth_of.hpp:1-24 *)
Definition c_v1_cpp11_nth_of : code :=
  If (Not (Defined BOOST_METAPARSE_V1_CPP11_NTH_OF_HPP))
    (Define BOOST_METAPARSE_V1_CPP11_NTH_OF_HPP 0 ;;
      Include h_v1_nth_of_c ;;
      Says (Defines n_v1_nth_of) ;;
      Says (Uses n_v1_nth_of_c) ;;
      Done)
    (Done) Done.
(** include/boost/metaparse/v1/cpp98/nth_of.hpp:1-40 *)
Definition c_v1_cpp98_nth_of : code :=
  If (Not (Defined BOOST_METAPARSE_V1_CPP98_NTH_OF_HPP))
    (Define BOOST_METAPARSE_V1_CPP98_NTH_OF_HPP 0 ;;
      Include h_v1_nth_of_c ;;
      Include h_limit_sequence_size ;;
      Needs BOOST_METAPARSE_LIMIT_SEQUENCE_SIZE ;;
      Says (Defines n_v1_nth_of) ;;
      Says (Uses n_v1_nth_of_c) ;;
      Done)
    (Done) Done.
(** include/boost/metaparse/v1/nth_of.hpp:1-18 *)
Definition c_v1_nth_of : code :=
  If (Not (Defined BOOST_METAPARSE_V1_NTH_OF_HPP))
    (Define BOOST_METAPARSE_V1_NTH_OF_HPP 0 ;;
      Include h_config ;;
      If (AtLeast BOOST_METAPARSE_STD 2011)
        (Include h_v1_cpp11_nth_of ;;
          Done)
        (Include h_v1_cpp98_nth_of ;;
          Done) Done)
    (Done) Done.
(** include/boost/metaparse/v1/transform_error_message.hpp:1-49 *)
Definition c_v1_transform_error_message : code :=
  If (Not (Defined BOOST_METAPARSE_V1_TRANSFORM_ERROR_MESSAGE_HPP))
    (Define BOOST_METAPARSE_V1_TRANSFORM_ERROR_MESSAGE_HPP 0 ;;
      Include h_v1_is_error ;;
      Include h_v1_reject ;;
      Include h_v1_get_position ;;
      Include h_v1_get_message ;;
      Says (Defines n_v1_transform_error_message) ;;
      Says (Uses n_v1_reject) ;;
      Says (Uses n_v1_get_message) ;;
      Says (Uses n_v1_get_position) ;;
      Says (Uses n_v1_is_error) ;;
      Says (Uses n_v1_transform_error_message) ;;
      Done)
    (Done) Done.
(** include/boost/metaparse/v1/middle_of.hpp:1-48 *)
Definition c_v1_middle_of : code :=
  If (Not (Defined BOOST_METAPARSE_V1_KEEP_MIDDLE_HPP))
    (Define BOOST_METAPARSE_V1_KEEP_MIDDLE_HPP 0 ;;
      Include h_v1_nth_of ;;
      Include h_v1_transform_error_message ;;
      Include h_v1_get_col ;;
      Include h_v1_get_line ;;
      Include h_v1_error_unpaired ;;
      Says (Defines n_v1_middle_of) ;;
      Says (Uses n_v1_middle_of) ;;
      Says (Uses n_v1_nth_of_c) ;;
      Says (Uses n_v1_transform_error_message) ;;
      Says (Uses n_v1_error_unpaired) ;;
      Says (Uses n_v1_get_line) ;;
      Says (Uses n_v1_get_col) ;;
      Done)
    (Done) Done.
(** include/boost/metaparse/v1/cpp11/last_of.hpp:1-36 *)
Definition c_v1_cpp11_last_of : code :=
  If (Not (Defined BOOST_METAPARSE_V1_CPP11_LAST_OF_HPP))
    (Define BOOST_METAPARSE_V1_CPP11_LAST_OF_HPP 0 ;;
      Include h_v1_cpp11_impl_nth_of_c ;;
      Include h_v1_fail ;;
      Include h_v1_error_index_out_of_range ;;
      Says (Defines n_v1_last_of) ;;
      Says (Uses n_v1_last_of) ;;
      Says (Uses n_v1_impl_nth_of_c) ;;
      Says (Uses n_v1_fail) ;;
      Says (Uses n_v1_error_index_out_of_range) ;;
      Done)
    (Done) Done.
(** include/boost/metaparse/v1/cpp98/last_of.hpp:1-66 *)
Definition c_v1_cpp98_last_of : code :=
  If (Not (Defined BOOST_METAPARSE_V1_CPP98_LAST_OF_HPP))
    (Define BOOST_METAPARSE_V1_CPP98_LAST_OF_HPP 0 ;;
      Include h_v1_cpp98_nth_of_c ;;
      Needs BOOST_METAPARSE_LIMIT_SEQUENCE_SIZE ;;
      Says (Declares n_v1_last_of) ;;
      If (Defined BOOST_METAPARSE_LAST_OF_N)
        (Error ;;
          Done)
        (Done)
      (Define BOOST_METAPARSE_LAST_OF_N 0 ;;
      Says (Uses n_v1_last_of) ;;
      Needs BOOST_METAPARSE_LAST_OF_N ;;
      Undef BOOST_METAPARSE_LAST_OF_N ;;
      Done))
    (Done) Done.
(** include/boost/metaparse/v1/last_of.hpp:1-18 *)
Definition c_v1_last_of : code :=
  If (Not (Defined BOOST_METAPARSE_V1_LAST_OF_HPP))
    (Define BOOST_METAPARSE_V1_LAST_OF_HPP 0 ;;
      Include h_config ;;
      If (AtLeast BOOST_METAPARSE_STD 2011)
        (Include h_v1_cpp11_last_of ;;
          Done)
        (Include h_v1_cpp98_last_of ;;
          Done) Done)
    (Done) Done.
(** include/boost/metaparse/v1/cpp11/impl/is_none_c_impl.hpp:1-36 *)
Definition c_v1_cpp11_impl_is_none_c_impl : code :=
  If (Not (Defined BOOST_METAPARSE_V1_CPP11_IMPL_IS_NONE_C_IMPL_HPP))
    (Define BOOST_METAPARSE_V1_CPP11_IMPL_IS_NONE_C_IMPL_HPP 0 ;;
      Says (Declares n_v1_impl_is_none_c_impl) ;;
      Says (Uses n_v1_impl_is_none_c_impl) ;;
      Done)
    (Done) Done.
(** include/boost/metaparse/v1/cpp11/impl/is_none_c.hpp:1-33 *)
Definition c_v1_cpp11_impl_is_none_c : code :=
  If (Not (Defined BOOST_METAPARSE_V1_CPP11_IMPL_IS_NONE_C_HPP))
    (Define BOOST_METAPARSE_V1_CPP11_IMPL_IS_NONE_C_HPP 0 ;;
      Include h_v1_cpp11_impl_is_none_c_impl ;;
      Says (Defines n_v1_impl_is_none_c) ;;
      Says (Uses n_v1_impl_is_none_c) ;;
      Says (Uses n_v1_impl_is_none_c_impl) ;;
      Done)
    (Done) Done.
(** include/boost/metaparse/v1/cpp11/one_char_except_c.hpp:1-33 *)
Definition c_v1_cpp11_one_char_except_c : code :=
  If (Not (Defined BOOST_METAPARSE_V1_CPP11_ONE_CHAR_EXCEPT_C_HPP))
    (Define BOOST_METAPARSE_V1_CPP11_ONE_CHAR_EXCEPT_C_HPP 0 ;;
      Include h_v1_error_unexpected_character ;;
      Include h_v1_cpp11_impl_is_none_c ;;
      Include h_v1_accept_when ;;
      Include h_v1_one_char ;;
      Says (Defines n_v1_one_char_except_c) ;;
      Says (Uses n_v1_accept_when) ;;
      Says (Uses n_v1_one_char) ;;
      Says (Uses n_v1_impl_is_none_c) ;;
      Says (Uses n_v1_error_unexpected_character) ;;
      Done)
    (Done) Done.
(** include/boost/metaparse/limit_one_char_except_size.hpp:1-15 *)
Definition c_limit_one_char_except_size : code :=
  If (Not (Defined BOOST_METAPARSE_LIMIT_ONE_CHAR_EXCEPT_SIZE_HPP))
    (Define BOOST_METAPARSE_LIMIT_ONE_CHAR_EXCEPT_SIZE_HPP 0 ;;
      If (Not (Defined BOOST_METAPARSE_LIMIT_ONE_CHAR_EXCEPT_SIZE))
        (Define BOOST_METAPARSE_LIMIT_ONE_CHAR_EXCEPT_SIZE 10 ;;
          Done)
        (Done) Done)
    (Done) Done.
(** include/boost/metaparse/v1/cpp98/impl/is_none.hpp:1-70 *)
Definition c_v1_cpp98_impl_is_none : code :=
  If (Not (Defined BOOST_METAPARSE_V1_CPP98_IMPL_IS_NONE_HPP))
    (Define BOOST_METAPARSE_V1_CPP98_IMPL_IS_NONE_HPP 0 ;;
      Include h_limit_one_char_except_size ;;
      Says (Defines n_v1_impl_is_none0) ;;
      If (Defined BOOST_METAPARSE_DEFINE_IS_NONE)
        (Error ;;
          Done)
        (Done)
      (Define BOOST_METAPARSE_DEFINE_IS_NONE 0 ;;
      Says (Defines n_v1_impl_is_none_N) ;;
      Says (Uses n_v1_impl_is_none_N) ;;
      Needs BOOST_METAPARSE_LIMIT_ONE_CHAR_EXCEPT_SIZE ;;
      Needs BOOST_METAPARSE_DEFINE_IS_NONE ;;
      Undef BOOST_METAPARSE_DEFINE_IS_NONE ;;
      Done))
    (Done) Done.
(** include/boost/metaparse/v1/cpp98/one_char_except_c.hpp:1-96 *)
Definition c_v1_cpp98_one_char_except_c : code :=
  If (Not (Defined BOOST_METAPARSE_V1_CPP98_ONE_CHAR_EXCEPT_C_HPP))
    (Define BOOST_METAPARSE_V1_CPP98_ONE_CHAR_EXCEPT_C_HPP 0 ;;
      Include h_limit_one_char_except_size ;;
      Include h_v1_error_unexpected_character ;;
      Include h_v1_cpp98_impl_is_none ;;
      Include h_v1_accept_when ;;
      Include h_v1_one_char ;;
      Needs BOOST_METAPARSE_LIMIT_ONE_CHAR_EXCEPT_SIZE ;;
      Says (Declares n_v1_one_char_except_c) ;;
      If (Defined BOOST_METAPARSE_WRAP)
        (Error ;;
          Done)
        (Done)
      (Define BOOST_METAPARSE_WRAP 0 ;;
      If (Defined MPLLBIS_METAPARSE_ONE_CHAR_EXCEPT_CASE)
        (Error ;;
          Done)
        (Done)
      (Define MPLLBIS_METAPARSE_ONE_CHAR_EXCEPT_CASE 0 ;;
      Says (Uses n_v1_one_char_except_c) ;;
      Says (Uses n_v1_accept_when) ;;
      Says (Uses n_v1_one_char) ;;
      Needs BOOST_METAPARSE_WRAP ;;
      Says (Uses n_v1_error_unexpected_character) ;;
      Needs MPLLBIS_METAPARSE_ONE_CHAR_EXCEPT_CASE ;;
      Undef MPLLBIS_METAPARSE_ONE_CHAR_EXCEPT_CASE ;;
      Undef BOOST_METAPARSE_WRAP ;;
      Done)))
    (Done) Done.
(** include/boost/metaparse/v1/one_char_except_c.hpp:1-18 *)
Definition c_v1_one_char_except_c : code :=
  If (Not (Defined BOOST_METAPARSE_V1_ONE_CHAR_EXCEPT_C_HPP))
    (Define BOOST_METAPARSE_V1_ONE_CHAR_EXCEPT_C_HPP 0 ;;
      Include h_config ;;
      If (AtLeast BOOST_METAPARSE_STD 2011)
        (Include h_v1_cpp11_one_char_except_c ;;
          Done)
        (Include h_v1_cpp98_one_char_except_c ;;
          Done) Done)
    (Done) Done.
(** include/boost/metaparse/v1/cpp11/fwd/string.hpp:1-22 *)
Definition c_v1_cpp11_fwd_string : code :=
  If (Not (Defined BOOST_METAPARSE_V1_CPP11_FWD_STRING_HPP))
    (Define BOOST_METAPARSE_V1_CPP11_FWD_STRING_HPP 0 ;;
      Says (Declares n_v1_string) ;;
      Done)
    (Done) Done.
(** include/boost/metaparse/v1/string_tag.hpp:1-24 *)
Definition c_v1_string_tag : code :=
  If (Not (Defined BOOST_METAPARSE_V1_STRING_TAG_HPP))
    (Define BOOST_METAPARSE_V1_STRING_TAG_HPP 0 ;;
      Says (Defines n_v1_string_tag) ;;
      Says (Uses n_v1_string_tag) ;;
      Done)
    (Done) Done.
(** include/boost/metaparse/v1/impl/string_iterator_tag.hpp:1-27 *)
Definition c_v1_impl_string_iterator_tag : code :=
  If (Not (Defined BOOST_METAPARSE_V1_IMPL_STRING_ITERATOR_TAG_HPP))
    (Define BOOST_METAPARSE_V1_IMPL_STRING_ITERATOR_TAG_HPP 0 ;;
      Says (Defines n_v1_impl_string_iterator_tag) ;;
      Says (Uses n_v1_impl_string_iterator_tag) ;;
      Done)
    (Done) Done.
(** include/boost/metaparse/v1/cpp11/impl/at_c.hpp:1-35 *)
Definition c_v1_cpp11_impl_at_c : code :=
  If (Not (Defined BOOST_METAPARSE_V1_CPP11_IMPL_AT_C_HPP))
    (Define BOOST_METAPARSE_V1_CPP11_IMPL_AT_C_HPP 0 ;;
      Include h_v1_cpp11_fwd_string ;;
      Says (Declares n_v1_impl_at_c) ;;
      Says (Uses n_v1_impl_at_c) ;;
      Says (Uses n_v1_string) ;;
      Done)
    (Done) Done.
(** include/boost/metaparse/limit_string_size.hpp:1-14 *)
Definition c_limit_string_size : code :=
  If (Not (Defined BOOST_METAPARSE_LIMIT_STRING_SIZE_HPP))
    (Define BOOST_METAPARSE_LIMIT_STRING_SIZE_HPP 0 ;;
      If (Not (Defined BOOST_METAPARSE_LIMIT_STRING_SIZE))
        (Define BOOST_METAPARSE_LIMIT_STRING_SIZE 32 ;;
          Done)
        (Done) Done)
    (Done) Done.
(** include/boost/metaparse/v1/impl/no_char.hpp:1-17 *)
Definition c_v1_impl_no_char : code :=
  If (Not (Defined BOOST_METAPARSE_V1_IMPL_NO_CHAR_HPP))
    (Define BOOST_METAPARSE_V1_IMPL_NO_CHAR_HPP 0 ;;
      If (Defined BOOST_NO_CHAR)
        (Error ;;
          Done)
        (Done)
      (Define BOOST_NO_CHAR 0 ;;
      Done))
    (Done) Done.
(** include/boost/metaparse/v1/cpp98/fwd/string.hpp:1-33 *)
Definition c_v1_cpp98_fwd_string : code :=
  If (Not (Defined BOOST_METAPARSE_V1_CPP98_FWD_STRING_HPP))
    (Define BOOST_METAPARSE_V1_CPP98_FWD_STRING_HPP 0 ;;
      Include h_limit_string_size ;;
      Include h_v1_impl_no_char ;;
      Needs BOOST_METAPARSE_LIMIT_STRING_SIZE ;;
      Needs BOOST_NO_CHAR ;;
      Says (Declares n_v1_string) ;;
      Done)
    (Done) Done.
(** include/boost/metaparse/v1/cpp98/impl/at_c.hpp:1-58 *)
Definition c_v1_cpp98_impl_at_c : code :=
  If (Not (Defined BOOST_METAPARSE_V1_CPP98_IMPL_AT_C_HPP))
    (Define BOOST_METAPARSE_V1_CPP98_IMPL_AT_C_HPP 0 ;;
      Include h_config ;;
      Include h_v1_cpp98_fwd_string ;;
      Says (Declares n_v1_impl_at_c) ;;
      If (Defined BOOST_METAPARSE_STRING_CASE)
        (Error ;;
          Done)
        (Done)
      (Define BOOST_METAPARSE_STRING_CASE 0 ;;
      Needs BOOST_METAPARSE_LIMIT_STRING_SIZE ;;
      Says (Uses n_v1_impl_at_c) ;;
      Says (Uses n_v1_string) ;;
      Needs BOOST_METAPARSE_STRING_CASE ;;
      Undef BOOST_METAPARSE_STRING_CASE ;;
      Done))
    (Done) Done.
(** include/boost/metaparse/v1/impl/at_c.hpp:1-18 *)
Definition c_v1_impl_at_c : code :=
  If (Not (Defined BOOST_METAPARSE_V1_IMPL_AT_C_HPP))
    (Define BOOST_METAPARSE_V1_IMPL_AT_C_HPP 0 ;;
      Include h_config ;;
      If (AtLeast BOOST_METAPARSE_STD 2011)
        (Include h_v1_cpp11_impl_at_c ;;
          Done)
        (Include h_v1_cpp98_impl_at_c ;;
          Done) Done)
    (Done) Done.
(** include/boost/metaparse/v1/impl/string_iterator.hpp:1-159 *)
Definition c_v1_impl_string_iterator : code :=
  If (Not (Defined BOOST_METAPARSE_V1_IMPL_STRING_ITERATOR_HPP))
    (Define BOOST_METAPARSE_V1_IMPL_STRING_ITERATOR_HPP 0 ;;
      Include h_v1_impl_string_iterator_tag ;;
      Include h_v1_impl_at_c ;;
      Says (Defines n_v1_impl_string_iterator) ;;
      Says (Uses n_v1_impl_string_iterator) ;;
      Says (Uses n_v1_impl_string_iterator_tag) ;;
      Says (Declares n_v1_impl_advance_c) ;;
      Says (Uses n_v1_impl_advance_c) ;;
      Says (Declares n_v1_impl_distance) ;;
      Says (Uses n_v1_impl_distance) ;;
      Says (Uses n_v1_impl_at_c) ;;
      Done)
    (Done) Done.
(** include/boost/metaparse/v1/cpp11/impl/empty_string.hpp:1-33 *)
Definition c_v1_cpp11_impl_empty_string : code :=
  If (Not (Defined BOOST_METAPARSE_V1_CPP11_IMPL_EMPTY_STRING_HPP))
    (Define BOOST_METAPARSE_V1_CPP11_IMPL_EMPTY_STRING_HPP 0 ;;
      Says (Defines n_v1_impl_empty_string) ;;
      Says (Uses n_v1_impl_empty_string) ;;
      Done)
    (Done) Done.
(** include/boost/metaparse/v1/cpp11/impl/size.hpp:1-34 *)
Definition c_v1_cpp11_impl_size : code :=
  If (Not (Defined BOOST_METAPARSE_V1_CPP11_IMPL_SIZE_HPP))
    (Define BOOST_METAPARSE_V1_CPP11_IMPL_SIZE_HPP 0 ;;
      Include h_v1_cpp11_fwd_string ;;
      Says (Declares n_v1_impl_size) ;;
      Says (Uses n_v1_impl_size) ;;
      Says (Uses n_v1_string) ;;
      Done)
    (Done) Done.
(** include/boost/metaparse/v1/cpp11/impl/pop_front.hpp:1-30 *)
Definition c_v1_cpp11_impl_pop_front : code :=
  If (Not (Defined BOOST_METAPARSE_V1_CPP11_IMPL_POP_FRONT_HPP))
    (Define BOOST_METAPARSE_V1_CPP11_IMPL_POP_FRONT_HPP 0 ;;
      Include h_v1_cpp11_fwd_string ;;
      Says (Declares n_v1_impl_pop_front) ;;
      Says (Uses n_v1_impl_pop_front) ;;
      Says (Uses n_v1_string) ;;
      Done)
    (Done) Done.
(** include/boost/metaparse/v1/cpp11/impl/push_front_c.hpp:1-30 *)
Definition c_v1_cpp11_impl_push_front_c : code :=
  If (Not (Defined BOOST_METAPARSE_V1_CPP11_IMPL_PUSH_FRONT_C_HPP))
    (Define BOOST_METAPARSE_V1_CPP11_IMPL_PUSH_FRONT_C_HPP 0 ;;
      Include h_v1_cpp11_fwd_string ;;
      Says (Declares n_v1_impl_push_front_c) ;;
      Says (Uses n_v1_impl_push_front_c) ;;
      Says (Uses n_v1_string) ;;
      Done)
    (Done) Done.
(** include/boost/metaparse/v1/cpp11/impl/push_back_c.hpp:1-30 *)
Definition c_v1_cpp11_impl_push_back_c : code :=
  If (Not (Defined BOOST_METAPARSE_V1_CPP11_IMPL_PUSH_BACK_C_HPP))
    (Define BOOST_METAPARSE_V1_CPP11_IMPL_PUSH_BACK_C_HPP 0 ;;
      Include h_v1_cpp11_fwd_string ;;
      Says (Declares n_v1_impl_push_back_c) ;;
      Says (Uses n_v1_impl_push_back_c) ;;
      Says (Uses n_v1_string) ;;
      Done)
    (Done) Done.
(** include/boost/metaparse/v1/cpp11/impl/pop_back.hpp:1-39 *)
Definition c_v1_cpp11_impl_pop_back : code :=
  If (Not (Defined BOOST_METAPARSE_V1_CPP11_IMPL_POP_BACK_HPP))
    (Define BOOST_METAPARSE_V1_CPP11_IMPL_POP_BACK_HPP 0 ;;
      Include h_v1_cpp11_fwd_string ;;
      Include h_v1_cpp11_impl_push_front_c ;;
      Include h_v1_cpp11_impl_size ;;
      Says (Declares n_v1_impl_pop_back) ;;
      Says (Uses n_v1_impl_pop_back) ;;
      Says (Uses n_v1_string) ;;
      Says (Uses n_v1_impl_push_front_c) ;;
      Done)
    (Done) Done.
(** include/boost/metaparse/v1/cpp11/impl/string_at.hpp:1-39 *)
Definition c_v1_cpp11_impl_string_at : code :=
  If (Not (Defined BOOST_METAPARSE_V1_CPP11_IMPL_STRING_AT_HPP))
    (Define BOOST_METAPARSE_V1_CPP11_IMPL_STRING_AT_HPP 0 ;;
      Include h_limit_string_size ;;
      Says (Defines n_v1_impl_string_at) ;;
      If (Defined BOOST_METAPARSE_V1_STRING_AT)
        (Error ;;
          Done)
        (Done)
      (Define BOOST_METAPARSE_V1_STRING_AT 0 ;;
      Says (OffersMacro BOOST_METAPARSE_V1_STRING_AT BOOST_METAPARSE_LIMIT_STRING_SIZE) ;;
      Says (Offers BOOST_METAPARSE_V1_STRING_AT n_v1_impl_string_at) ;;
      Done))
    (Done) Done.
(** include/boost/metaparse/v1/cpp11/impl/concat.hpp:1-30 *)
Definition c_v1_cpp11_impl_concat : code :=
  If (Not (Defined BOOST_METAPARSE_V1_CPP11_IMPL_CONCAT_HPP))
    (Define BOOST_METAPARSE_V1_CPP11_IMPL_CONCAT_HPP 0 ;;
      Include h_v1_cpp11_fwd_string ;;
      Says (Declares n_v1_impl_concat) ;;
      Says (Uses n_v1_impl_concat) ;;
      Says (Uses n_v1_string) ;;
      Done)
    (Done) Done.
(** include/boost/metaparse/v1/cpp11/impl/string.hpp:1-2125 *)
Definition c_v1_cpp11_impl_string : code :=
  If (Not (Defined BOOST_METAPARSE_V1_CPP11_IMPL_STRING_HPP))
    (Define BOOST_METAPARSE_V1_CPP11_IMPL_STRING_HPP 0 ;;
      Include h_v1_cpp11_impl_concat ;;
      Says (Defines n_v1_impl_take) ;;
      Says (Declares n_v1_impl_make_string) ;;
      Says (Uses n_v1_impl_make_string) ;;
      Says (Uses n_v1_string) ;;
      Says (Uses n_v1_impl_concat) ;;
      Says (Uses n_v1_impl_take) ;;
      If (Not (Defined SUNPRO_CC))
        (Says (Uses n_v1_impl_make_string) ;;
          Says (Uses n_v1_impl_concat) ;;
          Says (Uses n_v1_string) ;;
          Says (Uses n_v1_impl_take) ;;
          Done)
        (Done)
      (If (Not (Defined BOOST_METAPARSE_LIMIT_STRING_SIZE))
        (Error ;;
          Done)
        (Done)
      (If (Above BOOST_METAPARSE_LIMIT_STRING_SIZE 2048)
        (Error ;;
          Done)
        (Done)
      (If (Defined BOOST_METAPARSE_V1_STRING)
        (Error ;;
          Done)
        (Done)
      (Define BOOST_METAPARSE_V1_STRING 0 ;;
      Says (OffersMacro BOOST_METAPARSE_V1_STRING BOOST_METAPARSE_LIMIT_STRING_SIZE) ;;
      Says (Offers BOOST_METAPARSE_V1_STRING n_v1_impl_make_string) ;;
      Says (Offers BOOST_METAPARSE_V1_STRING n_v1_impl_take) ;;
      Done)))))
    (Done) Done.
(** include/boost/metaparse/v1/cpp11/string.hpp:1-220 *)
Definition c_v1_cpp11_string : code :=
  If (Not (Defined BOOST_METAPARSE_V1_CPP11_STRING_HPP))
    (Define BOOST_METAPARSE_V1_CPP11_STRING_HPP 0 ;;
      Include h_v1_cpp11_fwd_string ;;
      Include h_v1_string_tag ;;
      Include h_v1_impl_string_iterator ;;
      Include h_v1_cpp11_impl_empty_string ;;
      Include h_v1_cpp11_impl_size ;;
      Include h_v1_cpp11_impl_pop_front ;;
      Include h_v1_cpp11_impl_push_front_c ;;
      Include h_v1_cpp11_impl_push_back_c ;;
      Include h_v1_cpp11_impl_pop_back ;;
      Include h_v1_cpp11_impl_string_at ;;
      Says (Defines n_v1_string) ;;
      Says (Uses n_v1_string) ;;
      Says (Uses n_v1_string_tag) ;;
      Says (Uses n_v1_impl_push_back_c) ;;
      Says (Uses n_v1_impl_pop_back) ;;
      Says (Uses n_v1_impl_push_front_c) ;;
      Says (Uses n_v1_impl_pop_front) ;;
      Says (Uses n_v1_impl_string_iterator) ;;
      Says (Uses n_v1_impl_size) ;;
      Says (Uses n_v1_impl_empty_string) ;;
      If (Nonzero clang__)
        (If (Nonzero HAS_STRING_LITERAL_TEMPLATES)
            (Define BOOST_METAPARSE_V1_STRING 0 ;;
              Says (Offers BOOST_METAPARSE_V1_STRING n_string) ;;
              Done)
            (Include h_v1_cpp11_impl_string ;;
              Done) Done)
        (Include h_v1_cpp11_impl_string ;;
          Done) Done)
    (Done) Done.
(** include/boost/metaparse/v1/cpp98/impl/empty_string.hpp:1-33 *)
Definition c_v1_cpp98_impl_empty_string : code :=
  If (Not (Defined BOOST_METAPARSE_V1_CPP98_IMPL_EMPTY_STRING_HPP))
    (Define BOOST_METAPARSE_V1_CPP98_IMPL_EMPTY_STRING_HPP 0 ;;
      Says (Defines n_v1_impl_empty_string) ;;
      Says (Uses n_v1_impl_empty_string) ;;
      Done)
    (Done) Done.
(** include/boost/metaparse/v1/cpp98/impl/size.hpp:1-63 *)
Definition c_v1_cpp98_impl_size : code :=
  If (Not (Defined BOOST_METAPARSE_V1_CPP98_IMPL_SIZE_HPP))
    (Define BOOST_METAPARSE_V1_CPP98_IMPL_SIZE_HPP 0 ;;
      Include h_v1_cpp98_fwd_string ;;
      Says (Declares n_v1_impl_size) ;;
      If (Defined BOOST_METAPARSE_STRING_CASE)
        (Error ;;
          Done)
        (Done)
      (Define BOOST_METAPARSE_STRING_CASE 0 ;;
      Says (Uses n_v1_impl_size) ;;
      Says (Uses n_v1_string) ;;
      Needs BOOST_METAPARSE_LIMIT_STRING_SIZE ;;
      Needs BOOST_NO_CHAR ;;
      Needs BOOST_METAPARSE_STRING_CASE ;;
      Undef BOOST_METAPARSE_STRING_CASE ;;
      Done))
    (Done) Done.
(** include/boost/metaparse/v1/cpp98/impl/pop_front.hpp:1-56 *)
Definition c_v1_cpp98_impl_pop_front : code :=
  If (Not (Defined BOOST_METAPARSE_V1_CPP98_IMPL_POP_FRONT_HPP))
    (Define BOOST_METAPARSE_V1_CPP98_IMPL_POP_FRONT_HPP 0 ;;
      Include h_v1_cpp98_fwd_string ;;
      Says (Declares n_v1_impl_pop_front) ;;
      If (Defined BOOST_METAPARSE_POP_FRONT)
        (Error ;;
          Done)
        (Done)
      (Define BOOST_METAPARSE_POP_FRONT 0 ;;
      Needs BOOST_METAPARSE_LIMIT_STRING_SIZE ;;
      Says (Uses n_v1_impl_pop_front) ;;
      Says (Uses n_v1_string) ;;
      Needs BOOST_METAPARSE_POP_FRONT ;;
      Needs BOOST_NO_CHAR ;;
      Undef BOOST_METAPARSE_POP_FRONT ;;
      Done))
    (Done) Done.
(** include/boost/metaparse/v1/cpp98/impl/push_front_c.hpp:1-47 *)
Definition c_v1_cpp98_impl_push_front_c : code :=
  If (Not (Defined BOOST_METAPARSE_V1_CPP98_IMPL_PUSH_FRONT_C_HPP))
    (Define BOOST_METAPARSE_V1_CPP98_IMPL_PUSH_FRONT_C_HPP 0 ;;
      Include h_v1_cpp98_fwd_string ;;
      Says (Declares n_v1_impl_push_front_c) ;;
      Needs BOOST_METAPARSE_LIMIT_STRING_SIZE ;;
      Says (Uses n_v1_impl_push_front_c) ;;
      Says (Uses n_v1_string) ;;
      Done)
    (Done) Done.
(** include/boost/metaparse/v1/cpp98/impl/update_c.hpp:1-74 *)
Definition c_v1_cpp98_impl_update_c : code :=
  If (Not (Defined BOOST_METAPARSE_V1_CPP98_IMPL_UPDATE_C_HPP))
    (Define BOOST_METAPARSE_V1_CPP98_IMPL_UPDATE_C_HPP 0 ;;
      Include h_v1_cpp98_fwd_string ;;
      Says (Declares n_v1_impl_update_c) ;;
      If (Defined BOOST_METAPARSE_ARGN)
        (Error ;;
          Done)
        (Done)
      (Define BOOST_METAPARSE_ARGN 0 ;;
      If (Defined BOOST_METAPARSE_UPDATE)
        (Error ;;
          Done)
        (Done)
      (Define BOOST_METAPARSE_UPDATE 0 ;;
      Needs BOOST_METAPARSE_LIMIT_STRING_SIZE ;;
      Says (Uses n_v1_impl_update_c) ;;
      Says (Uses n_v1_string) ;;
      Needs BOOST_METAPARSE_ARGN ;;
      Needs BOOST_METAPARSE_UPDATE ;;
      Undef BOOST_METAPARSE_UPDATE ;;
      Undef BOOST_METAPARSE_ARGN ;;
      Done)))
    (Done) Done.
(** include/boost/metaparse/v1/cpp98/impl/push_back_c.hpp:1-34 *)
Definition c_v1_cpp98_impl_push_back_c : code :=
  If (Not (Defined BOOST_METAPARSE_V1_CPP98_IMPL_PUSH_BACK_C_HPP))
    (Define BOOST_METAPARSE_V1_CPP98_IMPL_PUSH_BACK_C_HPP 0 ;;
      Include h_v1_cpp98_fwd_string ;;
      Include h_v1_cpp98_impl_update_c ;;
      Include h_v1_cpp98_impl_size ;;
      Says (Declares n_v1_impl_push_back_c) ;;
      Says (Defines n_v1_impl_push_back_c) ;;
      Says (Uses n_v1_impl_update_c) ;;
      Says (Uses n_v1_impl_size) ;;
      Done)
    (Done) Done.
(** include/boost/metaparse/v1/cpp98/impl/pop_back.hpp:1-39 *)
Definition c_v1_cpp98_impl_pop_back : code :=
  If (Not (Defined BOOST_METAPARSE_V1_CPP98_IMPL_POP_BACK_HPP))
    (Define BOOST_METAPARSE_V1_CPP98_IMPL_POP_BACK_HPP 0 ;;
      Include h_v1_cpp98_fwd_string ;;
      Include h_v1_cpp98_impl_push_front_c ;;
      Include h_v1_cpp98_impl_size ;;
      Include h_v1_cpp98_impl_update_c ;;
      Says (Declares n_v1_impl_pop_back) ;;
      Says (Defines n_v1_impl_pop_back) ;;
      Says (Uses n_v1_impl_update_c) ;;
      Says (Uses n_v1_impl_size) ;;
      Needs BOOST_NO_CHAR ;;
      Done)
    (Done) Done.
(** include/boost/metaparse/v1/cpp98/string.hpp:1-272 *)
Definition c_v1_cpp98_string : code :=
  If (Not (Defined BOOST_METAPARSE_V1_CPP98_STRING_HPP))
    (Define BOOST_METAPARSE_V1_CPP98_STRING_HPP 0 ;;
      Include h_v1_cpp98_fwd_string ;;
      Include h_v1_string_tag ;;
      Include h_v1_impl_string_iterator ;;
      Include h_v1_cpp98_impl_empty_string ;;
      Include h_v1_cpp98_impl_size ;;
      Include h_v1_cpp98_impl_pop_front ;;
      Include h_v1_cpp98_impl_push_front_c ;;
      Include h_v1_cpp98_impl_push_back_c ;;
      Include h_v1_cpp98_impl_pop_back ;;
      Needs BOOST_METAPARSE_LIMIT_STRING_SIZE ;;
      Says (Defines n_v1_string) ;;
      Says (Uses n_v1_string) ;;
      Says (Uses n_v1_string_tag) ;;
      Says (Uses n_v1_impl_push_back_c) ;;
      Says (Uses n_v1_impl_pop_back) ;;
      Says (Uses n_v1_impl_push_front_c) ;;
      Says (Uses n_v1_impl_pop_front) ;;
      Says (Uses n_v1_impl_string_iterator) ;;
      Says (Uses n_v1_impl_size) ;;
      Says (Uses n_v1_impl_empty_string) ;;
      If (Defined BOOST_METAPARSE_STRING_CASE)
        (Error ;;
          Done)
        (Done)
      (Define BOOST_METAPARSE_STRING_CASE 0 ;;
      Needs BOOST_NO_CHAR ;;
      Needs BOOST_METAPARSE_STRING_CASE ;;
      Undef BOOST_METAPARSE_STRING_CASE ;;
      Define BOOST_METAPARSE_V1_CONFIG_NO_BOOST_METAPARSE_STRING 1 ;;
      Done))
    (Done) Done.
(** include/boost/metaparse/v1/string.hpp:1-18 *)
Definition c_v1_string : code :=
  If (Not (Defined BOOST_METAPARSE_V1_STRING_HPP))
    (Define BOOST_METAPARSE_V1_STRING_HPP 0 ;;
      Include h_config ;;
      If (AtLeast BOOST_METAPARSE_STD 2011)
        (Include h_v1_cpp11_string ;;
          Done)
        (Include h_v1_cpp98_string ;;
          Done) Done)
    (Done) Done.
(** include/boost/metaparse/v1/impl/front_inserter.hpp:1-32 *)
Definition c_v1_impl_front_inserter : code :=
  If (Not (Defined BOOST_METAPARSE_V1_IMPL_FRONT_INSERTER_HPP))
    (Define BOOST_METAPARSE_V1_IMPL_FRONT_INSERTER_HPP 0 ;;
      Says (Defines n_v1_impl_front_inserter) ;;
      Says (Uses n_v1_impl_front_inserter) ;;
      Done)
    (Done) Done.
(** include/boost/metaparse/v1/grammar.hpp:1-386 *)
Definition c_v1_grammar : code :=
  If (Not (Defined BOOST_METAPARSE_V1_GRAMMAR_HPP))
    (Define BOOST_METAPARSE_V1_GRAMMAR_HPP 0 ;;
      Include h_v1_repeated ;;
      Include h_v1_repeated1 ;;
      Include h_v1_sequence ;;
      Include h_v1_one_of ;;
      Include h_v1_transform ;;
      Include h_v1_lit ;;
      Include h_v1_lit_c ;;
      Include h_v1_token ;;
      Include h_v1_keyword ;;
      Include h_v1_middle_of ;;
      Include h_v1_last_of ;;
      Include h_v1_always ;;
      Include h_v1_one_char_except_c ;;
      Include h_v1_foldr1 ;;
      Include h_v1_foldl_start_with_parser ;;
      Include h_v1_alphanum ;;
      Include h_v1_build_parser ;;
      Include h_v1_entire_input ;;
      Include h_v1_string ;;
      Include h_v1_impl_front_inserter ;;
      Says (Defines n_v1_grammar_util_repeated_apply_impl) ;;
      Says (Uses n_v1_grammar_util_repeated_apply_impl) ;;
      Says (Uses n_v1_repeated) ;;
      Says (Uses n_v1_repeated1) ;;
      Says (Defines n_v1_grammar_util_build_repeated) ;;
      Says (Uses n_v1_grammar_util_build_repeated) ;;
      Says (Defines n_v1_grammar_util_build_sequence) ;;
      Says (Uses n_v1_grammar_util_build_sequence) ;;
      Says (Uses n_v1_sequence) ;;
      Says (Defines n_v1_grammar_util_build_selection) ;;
      Says (Uses n_v1_grammar_util_build_selection) ;;
      Says (Uses n_v1_one_of) ;;
      Says (Defines n_v1_grammar_util_get_parser) ;;
      Says (Uses n_v1_transform) ;;
      Says (Defines n_v1_grammar_util_build_name) ;;
      Says (Uses n_v1_grammar_util_build_name) ;;
      Says (Uses n_v1_grammar_util_get_parser) ;;
      Says (Defines n_v1_grammar_util_build_char) ;;
      Says (Uses n_v1_grammar_util_build_char) ;;
      Says (Uses n_v1_lit) ;;
      Says (Uses n_v1_token) ;;
      Says (Uses n_v1_lit_c) ;;
      Says (Defines n_v1_grammar_util_repeated_token) ;;
      Says (Defines n_v1_grammar_util_repeated1_token) ;;
      Says (Defines n_v1_grammar_util_or_token) ;;
      Says (Defines n_v1_grammar_util_open_bracket_token) ;;
      Says (Defines n_v1_grammar_util_close_bracket_token) ;;
      Says (Uses n_v1_keyword) ;;
      Says (Uses n_v1_string) ;;
      Says (Defines n_v1_grammar_util_define_token) ;;
      Says (Uses n_v1_middle_of) ;;
      Says (Uses n_v1_last_of) ;;
      Says (Uses n_v1_always) ;;
      Says (Uses n_v1_one_char_except_c) ;;
      Says (Defines n_v1_grammar_util_char_token) ;;
      Says (Uses n_v1_foldr1) ;;
      Says (Uses n_v1_alphanum) ;;
      Says (Uses n_v1_impl_front_inserter) ;;
      Says (Defines n_v1_grammar_util_name_token) ;;
      Says (Declares n_v1_grammar_util_expression) ;;
      Says (Uses n_v1_grammar_util_open_bracket_token) ;;
      Says (Uses n_v1_grammar_util_expression) ;;
      Says (Uses n_v1_grammar_util_close_bracket_token) ;;
      Says (Defines n_v1_grammar_util_bracket_expression) ;;
      Says (Uses n_v1_grammar_util_char_token) ;;
      Says (Uses n_v1_grammar_util_name_token) ;;
      Says (Uses n_v1_grammar_util_bracket_expression) ;;
      Says (Defines n_v1_grammar_util_name_expression) ;;
      Says (Uses n_v1_foldl_start_with_parser) ;;
      Says (Uses n_v1_grammar_util_repeated_token) ;;
      Says (Uses n_v1_grammar_util_repeated1_token) ;;
      Says (Uses n_v1_grammar_util_name_expression) ;;
      Says (Defines n_v1_grammar_util_repeated_expression) ;;
      Says (Uses n_v1_grammar_util_repeated_expression) ;;
      Says (Defines n_v1_grammar_util_seq_expression) ;;
      Says (Defines n_v1_grammar_util_expression) ;;
      Says (Uses n_v1_grammar_util_or_token) ;;
      Says (Uses n_v1_grammar_util_seq_expression) ;;
      Says (Uses n_v1_grammar_util_define_token) ;;
      Says (Defines n_v1_grammar_util_rule_definition) ;;
      Says (Uses n_v1_build_parser) ;;
      Says (Uses n_v1_entire_input) ;;
      Says (Uses n_v1_grammar_util_rule_definition) ;;
      Says (Defines n_v1_grammar_util_parser_parser) ;;
      Says (Defines n_v1_grammar_util_build_native_parser) ;;
      Says (Uses n_v1_grammar_util_build_native_parser) ;;
      Says (Defines n_v1_grammar_util_build_parsed_parser) ;;
      Says (Uses n_v1_grammar_util_parser_parser) ;;
      Says (Defines n_v1_grammar_util_name_parser) ;;
      Says (Defines n_v1_grammar_util_rebuild) ;;
      Says (Uses n_v1_grammar_util_name_parser) ;;
      Says (Declares n_v1_grammar_util_no_action) ;;
      Says (Declares n_v1_grammar_util_add_rule) ;;
      Says (Declares n_v1_grammar_util_add_import) ;;
      Says (Defines n_v1_grammar_util_grammar_builder) ;;
      Says (Uses n_v1_grammar_util_grammar_builder) ;;
      Says (Uses n_v1_grammar_util_rebuild) ;;
      Says (Uses n_v1_grammar_util_add_import) ;;
      Says (Uses n_v1_grammar_util_no_action) ;;
      Says (Uses n_v1_grammar_util_add_rule) ;;
      Says (Uses n_v1_grammar_util_build_parsed_parser) ;;
      Says (Defines n_v1_grammar) ;;
      Done)
    (Done) Done.
(** include/boost/metaparse/grammar.hpp:1-19 *)
Definition c_grammar : code :=
  If (Not (Defined BOOST_METAPARSE_GRAMMAR_HPP))
    (Define BOOST_METAPARSE_GRAMMAR_HPP 0 ;;
      Include h_v1_grammar ;;
      Says (Uses n_v1_grammar) ;;
      Says (Declares n_grammar) ;;
      Done)
    (Done) Done.
(** include/boost/metaparse/v1/if_.hpp:1-43 *)
Definition c_v1_if_ : code :=
  If (Not (Defined BOOST_METAPARSE_V1_IF__HPP))
    (Define BOOST_METAPARSE_V1_IF__HPP 0 ;;
      Include h_v1_accept ;;
      Include h_v1_is_error ;;
      Says (Defines n_v1_if_) ;;
      Says (Uses n_v1_if_) ;;
      Says (Uses n_v1_accept) ;;
      Says (Uses n_v1_is_error) ;;
      Done)
    (Done) Done.
(** include/boost/metaparse/if_.hpp:1-20 *)
Definition c_if_ : code :=
  If (Not (Defined BOOST_METAPARSE_IF__HPP))
    (Define BOOST_METAPARSE_IF__HPP 0 ;;
      Include h_v1_if_ ;;
      Says (Uses n_v1_if_) ;;
      Says (Declares n_if_) ;;
      Done)
    (Done) Done.
(** include/boost/metaparse/v1/impl/next_digit.hpp:1-36 *)
Definition c_v1_impl_next_digit : code :=
  If (Not (Defined BOOST_METAPARSE_V1_IMPL_NEXT_DIGIT_HPP))
    (Define BOOST_METAPARSE_V1_IMPL_NEXT_DIGIT_HPP 0 ;;
      Says (Defines n_v1_impl_next_digit) ;;
      Says (Uses n_v1_impl_next_digit) ;;
      Done)
    (Done) Done.
(** include/boost/metaparse/v1/int_.hpp:1-25 *)
Definition c_v1_int_ : code :=
  If (Not (Defined BOOST_METAPARSE_V1_INT__HPP))
    (Define BOOST_METAPARSE_V1_INT__HPP 0 ;;
      Include h_v1_digit_val ;;
      Include h_v1_foldl1 ;;
      Include h_v1_impl_next_digit ;;
      Says (Uses n_v1_foldl1) ;;
      Says (Uses n_v1_digit_val) ;;
      Says (Uses n_v1_impl_next_digit) ;;
      Says (Defines n_v1_int_) ;;
      Done)
    (Done) Done.
(** include/boost/metaparse/int_.hpp:1-20 *)
Definition c_int_ : code :=
  If (Not (Defined BOOST_METAPARSE_INT_HPP))
    (Define BOOST_METAPARSE_INT_HPP 0 ;;
      Include h_v1_int_ ;;
      Says (Uses n_v1_int_) ;;
      Says (Declares n_int_) ;;
      Done)
    (Done) Done.
(** include/boost/metaparse/is_error.hpp:1-20 *)
Definition c_is_error : code :=
  If (Not (Defined BOOST_METAPARSE_IS_ERROR_HPP))
    (Define BOOST_METAPARSE_IS_ERROR_HPP 0 ;;
      Include h_v1_is_error ;;
      Says (Uses n_v1_is_error) ;;
      Says (Declares n_is_error) ;;
      Done)
    (Done) Done.
(** include/boost/metaparse/v1/impl/fwd/iterate_impl.hpp:1-34 *)
Definition c_v1_impl_fwd_iterate_impl : code :=
  If (Not (Defined BOOST_METAPARSE_V1_IMPL_FWD_ITERATE_IMPL_HPP))
    (Define BOOST_METAPARSE_V1_IMPL_FWD_ITERATE_IMPL_HPP 0 ;;
      Include h_v1_is_error ;;
      Include h_v1_get_result ;;
      Include h_v1_get_remaining ;;
      Include h_v1_get_position ;;
      Says (Declares n_v1_impl_iterate_impl) ;;
      Done)
    (Done) Done.
(** include/boost/metaparse/v1/impl/iterate_impl_unchecked.hpp:1-44 *)
Definition c_v1_impl_iterate_impl_unchecked : code :=
  If (Not (Defined BOOST_METAPARSE_V1_IMPL_ITERATE_IMPL_UNCHECKED_HPP))
    (Define BOOST_METAPARSE_V1_IMPL_ITERATE_IMPL_UNCHECKED_HPP 0 ;;
      Include h_v1_impl_fwd_iterate_impl ;;
      Include h_v1_get_result ;;
      Include h_v1_get_remaining ;;
      Include h_v1_get_position ;;
      Says (Defines n_v1_impl_iterate_impl_unchecked) ;;
      Says (Uses n_v1_impl_iterate_impl) ;;
      Says (Uses n_v1_get_result) ;;
      Says (Uses n_v1_get_remaining) ;;
      Says (Uses n_v1_get_position) ;;
      Done)
    (Done) Done.
(** include/boost/metaparse/v1/impl/iterate_impl.hpp:1-46 *)
Definition c_v1_impl_iterate_impl : code :=
  If (Not (Defined BOOST_METAPARSE_V1_IMPL_ITERATE_IMPL_HPP))
    (Define BOOST_METAPARSE_V1_IMPL_ITERATE_IMPL_HPP 0 ;;
      Include h_v1_impl_iterate_impl_unchecked ;;
      Include h_v1_return_ ;;
      Include h_v1_is_error ;;
      Says (Defines n_v1_impl_iterate_impl) ;;
      Says (Uses n_v1_impl_iterate_impl) ;;
      Says (Uses n_v1_is_error) ;;
      Says (Uses n_v1_impl_iterate_impl_unchecked) ;;
      Says (Uses n_v1_return_) ;;
      Done)
    (Done) Done.
(** include/boost/metaparse/v1/iterate_c.hpp:1-26 *)
Definition c_v1_iterate_c : code :=
  If (Not (Defined BOOST_METAPARSE_V1_ITERATE_C_HPP))
    (Define BOOST_METAPARSE_V1_ITERATE_C_HPP 0 ;;
      Include h_v1_impl_iterate_impl ;;
      Says (Defines n_v1_iterate_c) ;;
      Says (Uses n_v1_impl_iterate_impl) ;;
      Done)
    (Done) Done.
(** include/boost/metaparse/iterate_c.hpp:1-20 *)
Definition c_iterate_c : code :=
  If (Not (Defined BOOST_METAPARSE_ITERATE_C_HPP))
    (Define BOOST_METAPARSE_ITERATE_C_HPP 0 ;;
      Include h_v1_iterate_c ;;
      Says (Uses n_v1_iterate_c) ;;
      Says (Declares n_iterate_c) ;;
      Done)
    (Done) Done.
(** include/boost/metaparse/v1/iterate.hpp:1-24 *)
Definition c_v1_iterate : code :=
  If (Not (Defined BOOST_METAPARSE_V1_ITERATE_HPP))
    (Define BOOST_METAPARSE_V1_ITERATE_HPP 0 ;;
      Include h_v1_iterate_c ;;
      Says (Defines n_v1_iterate) ;;
      Says (Uses n_v1_iterate_c) ;;
      Done)
    (Done) Done.
(** include/boost/metaparse/iterate.hpp:1-20 *)
Definition c_iterate : code :=
  If (Not (Defined BOOST_METAPARSE_ITERATE_HPP))
    (Define BOOST_METAPARSE_ITERATE_HPP 0 ;;
      Include h_v1_iterate ;;
      Says (Uses n_v1_iterate) ;;
      Says (Declares n_iterate) ;;
      Done)
    (Done) Done.
(** include/boost/metaparse/keyword.hpp:1-20 *)
Definition c_keyword : code :=
  If (Not (Defined BOOST_METAPARSE_KEYWORD_HPP))
    (Define BOOST_METAPARSE_KEYWORD_HPP 0 ;;
      Include h_v1_keyword ;;
      Says (Uses n_v1_keyword) ;;
      Says (Declares n_keyword) ;;
      Done)
    (Done) Done.
(** include/boost/metaparse/last_of.hpp:1-20 *)
Definition c_last_of : code :=
  If (Not (Defined BOOST_METAPARSE_LAST_OF_HPP))
    (Define BOOST_METAPARSE_LAST_OF_HPP 0 ;;
      Include h_v1_last_of ;;
      Says (Uses n_v1_last_of) ;;
      Says (Declares n_last_of) ;;
      Done)
    (Done) Done.
(** include/boost/metaparse/letter.hpp:1-20 *)
Definition c_letter : code :=
  If (Not (Defined BOOST_METAPARSE_LETTER_HPP))
    (Define BOOST_METAPARSE_LETTER_HPP 0 ;;
      Include h_v1_letter ;;
      Says (Uses n_v1_letter) ;;
      Says (Declares n_letter) ;;
      Done)
    (Done) Done.
(** include/boost/metaparse/lit_c.hpp:1-21 *)
Definition c_lit_c : code :=
  If (Not (Defined BOOST_METAPARSE_LIT_C_HPP))
    (Define BOOST_METAPARSE_LIT_C_HPP 0 ;;
      Include h_v1_lit_c ;;
      Says (Uses n_v1_lit_c) ;;
      Says (Declares n_lit_c) ;;
      Done)
    (Done) Done.
(** include/boost/metaparse/lit.hpp:1-21 *)
Definition c_lit : code :=
  If (Not (Defined BOOST_METAPARSE_LIT_HPP))
    (Define BOOST_METAPARSE_LIT_HPP 0 ;;
      Include h_v1_lit ;;
      Says (Uses n_v1_lit) ;;
      Says (Declares n_lit) ;;
      Done)
    (Done) Done.
(** include/boost/metaparse/v1/look_ahead.hpp:1-50 *)
Definition c_v1_look_ahead : code :=
  If (Not (Defined BOOST_METAPARSE_V1_LOOK_AHEAD_HPP))
    (Define BOOST_METAPARSE_V1_LOOK_AHEAD_HPP 0 ;;
      Include h_v1_is_error ;;
      Include h_v1_accept ;;
      Include h_v1_get_result ;;
      Says (Defines n_v1_look_ahead) ;;
      Says (Uses n_v1_accept) ;;
      Says (Uses n_v1_get_result) ;;
      Says (Uses n_v1_look_ahead) ;;
      Says (Uses n_v1_is_error) ;;
      Done)
    (Done) Done.
(** include/boost/metaparse/look_ahead.hpp:1-20 *)
Definition c_look_ahead : code :=
  If (Not (Defined BOOST_METAPARSE_LOOK_AHEAD_HPP))
    (Define BOOST_METAPARSE_LOOK_AHEAD_HPP 0 ;;
      Include h_v1_look_ahead ;;
      Says (Uses n_v1_look_ahead) ;;
      Says (Declares n_look_ahead) ;;
      Done)
    (Done) Done.
(** include/boost/metaparse/middle_of.hpp:1-20 *)
Definition c_middle_of : code :=
  If (Not (Defined BOOST_METAPARSE_KEEP_MIDDLE_HPP))
    (Define BOOST_METAPARSE_KEEP_MIDDLE_HPP 0 ;;
      Include h_v1_middle_of ;;
      Says (Uses n_v1_middle_of) ;;
      Says (Declares n_middle_of) ;;
      Done)
    (Done) Done.
(** include/boost/metaparse/next_char.hpp:1-20 *)
Definition c_next_char : code :=
  If (Not (Defined BOOST_METAPARSE_NEXT_CHAR_HPP))
    (Define BOOST_METAPARSE_NEXT_CHAR_HPP 0 ;;
      Include h_v1_next_char ;;
      Says (Uses n_v1_next_char) ;;
      Says (Declares n_next_char) ;;
      Done)
    (Done) Done.
(** include/boost/metaparse/next_line.hpp:1-20 *)
Definition c_next_line : code :=
  If (Not (Defined BOOST_METAPARSE_NEXT_LINE_HPP))
    (Define BOOST_METAPARSE_NEXT_LINE_HPP 0 ;;
      Include h_v1_next_line ;;
      Says (Uses n_v1_next_line) ;;
      Says (Declares n_next_line) ;;
      Done)
    (Done) Done.
(** include/boost/metaparse/nth_of_c.hpp:1-20 *)
Definition c_nth_of_c : code :=
  If (Not (Defined BOOST_METAPARSE_NTH_OF_C_HPP))
    (Define BOOST_METAPARSE_NTH_OF_C_HPP 0 ;;
      Include h_v1_nth_of_c ;;
      Says (Uses n_v1_nth_of_c) ;;
      Says (Declares n_nth_of_c) ;;
      Done)
    (Done) Done.
(** include/boost/metaparse/nth_of.hpp:1-20 *)
Definition c_nth_of : code :=
  If (Not (Defined BOOST_METAPARSE_NTH_OF_HPP))
    (Define BOOST_METAPARSE_NTH_OF_HPP 0 ;;
      Include h_v1_nth_of ;;
      Says (Uses n_v1_nth_of) ;;
      Says (Declares n_nth_of) ;;
      Done)
    (Done) Done.
(** include/boost/metaparse/one_char_except_c.hpp:1-20 *)
Definition c_one_char_except_c : code :=
  If (Not (Defined BOOST_METAPARSE_ONE_CHAR_EXCEPT_C_HPP))
    (Define BOOST_METAPARSE_ONE_CHAR_EXCEPT_C_HPP 0 ;;
      Include h_v1_one_char_except_c ;;
      Says (Uses n_v1_one_char_except_c) ;;
      Says (Declares n_one_char_except_c) ;;
      Done)
    (Done) Done.
(** include/boost/metaparse/v1/cpp11/one_char_except.hpp:1-33 *)
Definition c_v1_cpp11_one_char_except : code :=
  If (Not (Defined BOOST_METAPARSE_V1_CPP11_ONE_CHAR_EXCEPT_HPP))
    (Define BOOST_METAPARSE_V1_CPP11_ONE_CHAR_EXCEPT_HPP 0 ;;
      Include h_v1_error_unexpected_character ;;
      Include h_v1_cpp11_impl_is_none_c ;;
      Include h_v1_one_char ;;
      Include h_v1_accept_when ;;
      Says (Defines n_v1_one_char_except) ;;
      Says (Uses n_v1_accept_when) ;;
      Says (Uses n_v1_one_char) ;;
      Says (Uses n_v1_impl_is_none_c) ;;
      Says (Uses n_v1_error_unexpected_character) ;;
      Done)
    (Done) Done.
(** include/boost/metaparse/v1/cpp98/impl/one_char_except_not_used.hpp:1-24 *)
Definition c_v1_cpp98_impl_one_char_except_not_used : code :=
  If (Not (Defined BOOST_METAPARSE_V1_CPP98_IMPL_ONE_CHAR_EXCEPT_NOT_USED_HPP))
    (Define BOOST_METAPARSE_V1_CPP98_IMPL_ONE_CHAR_EXCEPT_NOT_USED_HPP 0 ;;
      Says (Defines n_v1_impl_one_char_except_not_used) ;;
      Done)
    (Done) Done.
(** include/boost/metaparse/v1/cpp98/one_char_except.hpp:1-84 *)
Definition c_v1_cpp98_one_char_except : code :=
  If (Not (Defined BOOST_METAPARSE_V1_CPP98_ONE_CHAR_EXCEPT_HPP))
    (Define BOOST_METAPARSE_V1_CPP98_ONE_CHAR_EXCEPT_HPP 0 ;;
      Include h_v1_error_unexpected_character ;;
      Include h_v1_cpp98_impl_is_none ;;
      Include h_v1_cpp98_impl_one_char_except_not_used ;;
      Include h_v1_one_char ;;
      Include h_v1_accept_when ;;
      Include h_limit_one_char_except_size ;;
      Needs BOOST_METAPARSE_LIMIT_ONE_CHAR_EXCEPT_SIZE ;;
      Says (Uses n_v1_impl_one_char_except_not_used) ;;
      Says (Declares n_v1_one_char_except) ;;
      If (Defined MPLLBIS_METAPARSE_ONE_CHAR_EXCEPT_CASE)
        (Error ;;
          Done)
        (Done)
      (Define MPLLBIS_METAPARSE_ONE_CHAR_EXCEPT_CASE 0 ;;
      Says (Uses n_v1_one_char_except) ;;
      Says (Uses n_v1_accept_when) ;;
      Says (Uses n_v1_one_char) ;;
      Says (Uses n_v1_error_unexpected_character) ;;
      Needs MPLLBIS_METAPARSE_ONE_CHAR_EXCEPT_CASE ;;
      Undef MPLLBIS_METAPARSE_ONE_CHAR_EXCEPT_CASE ;;
      Done))
    (Done) Done.
(** include/boost/metaparse/v1/one_char_except.hpp:1-18 *)
Definition c_v1_one_char_except : code :=
  If (Not (Defined BOOST_METAPARSE_V1_ONE_CHAR_EXCEPT_HPP))
    (Define BOOST_METAPARSE_V1_ONE_CHAR_EXCEPT_HPP 0 ;;
      Include h_config ;;
      If (AtLeast BOOST_METAPARSE_STD 2011)
        (Include h_v1_cpp11_one_char_except ;;
          Done)
        (Include h_v1_cpp98_one_char_except ;;
          Done) Done)
    (Done) Done.
(** include/boost/metaparse/one_char_except.hpp:1-20 *)
Definition c_one_char_except : code :=
  If (Not (Defined BOOST_METAPARSE_ONE_CHAR_EXCEPT_HPP))
    (Define BOOST_METAPARSE_ONE_CHAR_EXCEPT_HPP 0 ;;
      Include h_v1_one_char_except ;;
      Says (Uses n_v1_one_char_except) ;;
      Says (Declares n_one_char_except) ;;
      Done)
    (Done) Done.
(** include/boost/metaparse/one_char.hpp:1-21 *)
Definition c_one_char : code :=
  If (Not (Defined BOOST_METAPARSE_ONE_CHAR_HPP))
    (Define BOOST_METAPARSE_ONE_CHAR_HPP 0 ;;
      Include h_v1_one_char ;;
      Says (Uses n_v1_one_char) ;;
      Says (Declares n_one_char) ;;
      Done)
    (Done) Done.
(** include/boost/metaparse/v1/cpp14/impl/any_of_c.hpp:1-55 *)
Definition c_v1_cpp14_impl_any_of_c : code :=
  If (Not (Defined BOOST_METAPARSE_V1_CPP14_IMPL_ANY_OF_C_HPP))
    (Define BOOST_METAPARSE_V1_CPP14_IMPL_ANY_OF_C_HPP 0 ;;
      Says (Defines n_v1_impl_any_of_c) ;;
      Says (Uses n_v1_impl_any_of_c) ;;
      Done)
    (Done) Done.
(** include/boost/metaparse/v1/cpp14/one_of_c.hpp:1-35 *)
Definition c_v1_cpp14_one_of_c : code :=
  If (Not (Defined BOOST_METAPARSE_V1_CPP14_ONE_OF_C_HPP))
    (Define BOOST_METAPARSE_V1_CPP14_ONE_OF_C_HPP 0 ;;
      Include h_v1_one_char ;;
      Include h_v1_accept_when ;;
      Include h_v1_error_none_of_the_expected_cases_found ;;
      Include h_v1_cpp14_impl_any_of_c ;;
      Says (Defines n_v1_one_of_c) ;;
      Says (Uses n_v1_accept_when) ;;
      Says (Uses n_v1_one_char) ;;
      Says (Uses n_v1_impl_any_of_c) ;;
      Says (Uses n_v1_error_none_of_the_expected_cases_found) ;;
      Done)
    (Done) Done.
(** include/boost/metaparse/v1/cpp11/impl/or_c.hpp:1-36 *)
Definition c_v1_cpp11_impl_or_c : code :=
  If (Not (Defined BOOST_METAPARSE_V1_CPP11_OR_C_HPP))
    (Define BOOST_METAPARSE_V1_CPP11_OR_C_HPP 0 ;;
      Says (Declares n_v1_impl_or_c) ;;
      Says (Uses n_v1_impl_or_c) ;;
      Done)
    (Done) Done.
(** include/boost/metaparse/v1/cpp11/impl/any_of_c.hpp:1-33 *)
Definition c_v1_cpp11_impl_any_of_c : code :=
  If (Not (Defined BOOST_METAPARSE_V1_CPP11_IMPL_ANY_OF_C_HPP))
    (Define BOOST_METAPARSE_V1_CPP11_IMPL_ANY_OF_C_HPP 0 ;;
      Include h_v1_cpp11_impl_or_c ;;
      Says (Defines n_v1_impl_any_of_c) ;;
      Says (Uses n_v1_impl_any_of_c) ;;
      Says (Uses n_v1_impl_or_c) ;;
      Done)
    (Done) Done.
(** include/boost/metaparse/v1/cpp11/one_of_c.hpp:1-35 *)
Definition c_v1_cpp11_one_of_c : code :=
  If (Not (Defined BOOST_METAPARSE_V1_CPP11_ONE_OF_C_HPP))
    (Define BOOST_METAPARSE_V1_CPP11_ONE_OF_C_HPP 0 ;;
      Include h_v1_one_char ;;
      Include h_v1_accept_when ;;
      Include h_v1_error_none_of_the_expected_cases_found ;;
      Include h_v1_cpp11_impl_any_of_c ;;
      Says (Defines n_v1_one_of_c) ;;
      Says (Uses n_v1_accept_when) ;;
      Says (Uses n_v1_one_char) ;;
      Says (Uses n_v1_impl_any_of_c) ;;
      Says (Uses n_v1_error_none_of_the_expected_cases_found) ;;
      Done)
    (Done) Done.
(** include/boost/metaparse/v1/cpp98/one_of_c.hpp:1-81 *)
Definition c_v1_cpp98_one_of_c : code :=
  If (Not (Defined BOOST_METAPARSE_V1_CPP98_ONE_OF_C_HPP))
    (Define BOOST_METAPARSE_V1_CPP98_ONE_OF_C_HPP 0 ;;
      Include h_v1_one_of ;;
      Include h_v1_lit_c ;;
      Include h_limit_one_of_size ;;
      If (Defined BOOST_NO_SCALAR_VALUE)
        (Error ;;
          Done)
        (Done)
      (Define BOOST_NO_SCALAR_VALUE 0 ;;
      Needs BOOST_METAPARSE_LIMIT_ONE_OF_SIZE ;;
      Needs BOOST_NO_SCALAR_VALUE ;;
      Says (Declares n_v1_one_of_c) ;;
      If (Defined BOOST_METAPARSE_ONE_OF_C_LIT)
        (Error ;;
          Done)
        (Done)
      (Define BOOST_METAPARSE_ONE_OF_C_LIT 0 ;;
      Says (Uses n_v1_lit_c) ;;
      If (Defined BOOST_METAPARSE_ONE_OF_C_CASE)
        (Error ;;
          Done)
        (Done)
      (Define BOOST_METAPARSE_ONE_OF_C_CASE 0 ;;
      Says (Uses n_v1_one_of_c) ;;
      Says (Uses n_v1_one_of) ;;
      Needs BOOST_METAPARSE_ONE_OF_C_LIT ;;
      Needs BOOST_METAPARSE_ONE_OF_C_CASE ;;
      Undef BOOST_METAPARSE_ONE_OF_C_CASE ;;
      Undef BOOST_METAPARSE_ONE_OF_C_LIT ;;
      Undef BOOST_NO_SCALAR_VALUE ;;
      Done))))
    (Done) Done.
(** include/boost/metaparse/v1/one_of_c.hpp:1-20 *)
Definition c_v1_one_of_c : code :=
  If (Not (Defined BOOST_METAPARSE_V1_ONE_OF_C_HPP))
    (Define BOOST_METAPARSE_V1_ONE_OF_C_HPP 0 ;;
      Include h_config ;;
      If (AtLeast BOOST_METAPARSE_STD 2014)
        (Include h_v1_cpp14_one_of_c ;;
          Done)
        (If (AtLeast BOOST_METAPARSE_STD 2011)
            (Include h_v1_cpp11_one_of_c ;;
              Done)
            (Include h_v1_cpp98_one_of_c ;;
              Done) Done) Done)
    (Done) Done.
(** include/boost/metaparse/one_of_c.hpp:1-20 *)
Definition c_one_of_c : code :=
  If (Not (Defined BOOST_METAPARSE_ONE_OF_C_HPP))
    (Define BOOST_METAPARSE_ONE_OF_C_HPP 0 ;;
      Include h_v1_one_of_c ;;
      Says (Uses n_v1_one_of_c) ;;
      Says (Declares n_one_of_c) ;;
      Done)
    (Done) Done.
(** include/boost/metaparse/one_of.hpp:1-20 *)
Definition c_one_of : code :=
  If (Not (Defined BOOST_METAPARSE_ONE_OF_HPP))
    (Define BOOST_METAPARSE_ONE_OF_HPP 0 ;;
      Include h_v1_one_of ;;
      Says (Uses n_v1_one_of) ;;
      Says (Declares n_one_of) ;;
      Done)
    (Done) Done.
(** include/boost/metaparse/v1/optional.hpp:1-40 *)
Definition c_v1_optional : code :=
  If (Not (Defined BOOST_METAPARSE_V1_OPTIONAL_HPP))
    (Define BOOST_METAPARSE_V1_OPTIONAL_HPP 0 ;;
      Include h_v1_is_error ;;
      Include h_v1_accept ;;
      Says (Defines n_v1_optional) ;;
      Says (Uses n_v1_optional) ;;
      Says (Uses n_v1_is_error) ;;
      Says (Uses n_v1_accept) ;;
      Done)
    (Done) Done.
(** include/boost/metaparse/optional.hpp:1-20 *)
Definition c_optional : code :=
  If (Not (Defined BOOST_METAPARSE_OPTIONAL_HPP))
    (Define BOOST_METAPARSE_OPTIONAL_HPP 0 ;;
      Include h_v1_optional ;;
      Says (Uses n_v1_optional) ;;
      Says (Declares n_optional) ;;
      Done)
    (Done) Done.
(** include/boost/metaparse/v1/range_c.hpp:1-33 *)
Definition c_v1_range_c : code :=
  If (Not (Defined BOOST_METAPARSE_V1_RANGE_C_HPP))
    (Define BOOST_METAPARSE_V1_RANGE_C_HPP 0 ;;
      Include h_v1_accept_when ;;
      Include h_v1_one_char ;;
      Include h_v1_util_in_range_c ;;
      Include h_v1_error_unexpected_character ;;
      Says (Defines n_v1_range_c) ;;
      Says (Uses n_v1_accept_when) ;;
      Says (Uses n_v1_one_char) ;;
      Says (Uses n_v1_util_in_range_c) ;;
      Says (Uses n_v1_error_unexpected_character) ;;
      Done)
    (Done) Done.
(** include/boost/metaparse/range_c.hpp:1-20 *)
Definition c_range_c : code :=
  If (Not (Defined BOOST_METAPARSE_RANGE_C_HPP))
    (Define BOOST_METAPARSE_RANGE_C_HPP 0 ;;
      Include h_v1_range_c ;;
      Says (Uses n_v1_range_c) ;;
      Says (Declares n_range_c) ;;
      Done)
    (Done) Done.
(** include/boost/metaparse/v1/range.hpp:1-33 *)
Definition c_v1_range : code :=
  If (Not (Defined BOOST_METAPARSE_V1_RANGE_HPP))
    (Define BOOST_METAPARSE_V1_RANGE_HPP 0 ;;
      Include h_v1_accept_when ;;
      Include h_v1_one_char ;;
      Include h_v1_util_in_range_c ;;
      Include h_v1_error_unexpected_character ;;
      Says (Defines n_v1_range) ;;
      Says (Uses n_v1_accept_when) ;;
      Says (Uses n_v1_one_char) ;;
      Says (Uses n_v1_util_in_range_c) ;;
      Says (Uses n_v1_error_unexpected_character) ;;
      Done)
    (Done) Done.
(** include/boost/metaparse/range.hpp:1-20 *)
Definition c_range : code :=
  If (Not (Defined BOOST_METAPARSE_RANGE_HPP))
    (Define BOOST_METAPARSE_RANGE_HPP 0 ;;
      Include h_v1_range ;;
      Says (Uses n_v1_range) ;;
      Says (Declares n_range) ;;
      Done)
    (Done) Done.
(** include/boost/metaparse/reject.hpp:1-20 *)
Definition c_reject : code :=
  If (Not (Defined BOOST_METAPARSE_REJECT_HPP))
    (Define BOOST_METAPARSE_REJECT_HPP 0 ;;
      Include h_v1_reject ;;
      Says (Uses n_v1_reject) ;;
      Says (Declares n_reject) ;;
      Done)
    (Done) Done.
(** include/boost/metaparse/return_.hpp:1-20 *)
Definition c_return_ : code :=
  If (Not (Defined BOOST_METAPARSE_RETURN__HPP))
    (Define BOOST_METAPARSE_RETURN__HPP 0 ;;
      Include h_v1_return_ ;;
      Says (Uses n_v1_return_) ;;
      Says (Declares n_return_) ;;
      Done)
    (Done) Done.
(** include/boost/metaparse/sequence.hpp:1-20 *)
Definition c_sequence : code :=
  If (Not (Defined BOOST_METAPARSE_SEQUENCE_HPP))
    (Define BOOST_METAPARSE_SEQUENCE_HPP 0 ;;
      Include h_v1_sequence ;;
      Says (Uses n_v1_sequence) ;;
      Says (Declares n_sequence) ;;
      Done)
    (Done) Done.
(** include/boost/metaparse/v1/sequence_apply.hpp:1-80 *)
Definition c_v1_sequence_apply : code :=
  If (Not (Defined BOOST_METAPARSE_V1_SEQUENCE_APPLY_HPP))
    (Define BOOST_METAPARSE_V1_SEQUENCE_APPLY_HPP 0 ;;
      Include h_v1_letter ;;
      Include h_v1_sequence ;;
      Include h_limit_sequence_size ;;
      If (Defined BOOST_METAPARSE_SEQUENCE_APPLY_ARG)
        (Error ;;
          Done)
        (Done)
      (Define BOOST_METAPARSE_SEQUENCE_APPLY_ARG 0 ;;
      If (Defined BOOST_METAPARSE_SEQUENCE_APPLY)
        (Error ;;
          Done)
        (Done)
      (Define BOOST_METAPARSE_SEQUENCE_APPLY 0 ;;
      Says (Defines n_v1_impl_sequence_apply_transform_N) ;;
      Says (Uses n_v1_impl_sequence_apply_transform_N) ;;
      Needs BOOST_METAPARSE_SEQUENCE_APPLY_ARG ;;
      Says (Defines n_v1_sequence_apply_N) ;;
      Says (Uses n_v1_transform) ;;
      Says (Uses n_v1_sequence) ;;
      Needs BOOST_METAPARSE_LIMIT_SEQUENCE_SIZE ;;
      Needs BOOST_METAPARSE_SEQUENCE_APPLY ;;
      Undef BOOST_METAPARSE_SEQUENCE_APPLY ;;
      Undef BOOST_METAPARSE_SEQUENCE_APPLY_ARG ;;
      Done)))
    (Done) Done.
(** include/boost/metaparse/sequence_apply.hpp:1-36 *)
Definition c_sequence_apply : code :=
  If (Not (Defined BOOST_METAPARSE_SEQUENCE_APPLY_HPP))
    (Define BOOST_METAPARSE_SEQUENCE_APPLY_HPP 0 ;;
      Include h_v1_sequence_apply ;;
      If (Defined BOOST_METAPARSE_USING)
        (Error ;;
          Done)
        (Done)
      (Define BOOST_METAPARSE_USING 0 ;;
      Says (Uses n_v1_sequence_apply_N) ;;
      Says (Declares n_sequence_apply_N) ;;
      Needs BOOST_METAPARSE_LIMIT_SEQUENCE_SIZE ;;
      Needs BOOST_METAPARSE_USING ;;
      Undef BOOST_METAPARSE_USING ;;
      Done))
    (Done) Done.
(** include/boost/metaparse/source_position.hpp:1-20 *)
Definition c_source_position : code :=
  If (Not (Defined BOOST_METAPARSE_SOURCE_POSITION_HPP))
    (Define BOOST_METAPARSE_SOURCE_POSITION_HPP 0 ;;
      Include h_v1_source_position ;;
      Says (Uses n_v1_source_position) ;;
      Says (Declares n_source_position) ;;
      Done)
    (Done) Done.
(** include/boost/metaparse/source_position_tag.hpp:1-20 *)
Definition c_source_position_tag : code :=
  If (Not (Defined BOOST_METAPARSE_SOURCE_POSITION_TAG_HPP))
    (Define BOOST_METAPARSE_SOURCE_POSITION_TAG_HPP 0 ;;
      Include h_v1_source_position_tag ;;
      Says (Uses n_v1_source_position_tag) ;;
      Says (Declares n_source_position_tag) ;;
      Done)
    (Done) Done.
(** include/boost/metaparse/space.hpp:1-21 *)
Definition c_space : code :=
  If (Not (Defined BOOST_METAPARSE_SPACE_HPP))
    (Define BOOST_METAPARSE_SPACE_HPP 0 ;;
      Include h_v1_space ;;
      Says (Uses n_v1_space) ;;
      Says (Declares n_space) ;;
      Done)
    (Done) Done.
(** include/boost/metaparse/v1/spaces.hpp:1-24 *)
Definition c_v1_spaces : code :=
  If (Not (Defined BOOST_METAPARSE_V1_SPACES_HPP))
    (Define BOOST_METAPARSE_V1_SPACES_HPP 0 ;;
      Include h_v1_repeated1 ;;
      Include h_v1_space ;;
      Says (Uses n_v1_repeated1) ;;
      Says (Uses n_v1_space) ;;
      Says (Defines n_v1_spaces) ;;
      Done)
    (Done) Done.
(** include/boost/metaparse/spaces.hpp:1-20 *)
Definition c_spaces : code :=
  If (Not (Defined BOOST_METAPARSE_SPACES_HPP))
    (Define BOOST_METAPARSE_SPACES_HPP 0 ;;
      Include h_v1_spaces ;;
      Says (Uses n_v1_spaces) ;;
      Says (Declares n_spaces) ;;
      Done)
    (Done) Done.
(** include/boost/metaparse/start.hpp:1-20 *)
Definition c_start : code :=
  If (Not (Defined BOOST_METAPARSE_START_HPP))
    (Define BOOST_METAPARSE_START_HPP 0 ;;
      Include h_v1_start ;;
      Says (Uses n_v1_start) ;;
      Says (Declares n_start) ;;
      Done)
    (Done) Done.
(** include/boost/metaparse/string_tag.hpp:1-20 *)
Definition c_string_tag : code :=
  If (Not (Defined BOOST_METAPARSE_STRING_TAG_HPP))
    (Define BOOST_METAPARSE_STRING_TAG_HPP 0 ;;
      Include h_v1_string_tag ;;
      Says (Uses n_v1_string_tag) ;;
      Says (Declares n_string_tag) ;;
      Done)
    (Done) Done.
(** include/boost/metaparse/string.hpp:1-28 *)
Definition c_string : code :=
  Include h_v1_string ;;
  If (Not (Defined BOOST_METAPARSE_STRING_HPP))
    (Define BOOST_METAPARSE_STRING_HPP 0 ;;
      Include h_string_tag ;;
      If (Defined BOOST_METAPARSE_STRING)
        (Error ;;
          Done)
        (Done)
      (Define BOOST_METAPARSE_STRING 0 ;;
      Says (OffersMacro BOOST_METAPARSE_STRING BOOST_METAPARSE_V1_STRING) ;;
      Says (Uses n_v1_string) ;;
      Says (Declares n_string) ;;
      Done))
    (Done) Done.
(** include/boost/metaparse/token.hpp:1-20 *)
Definition c_token : code :=
  If (Not (Defined BOOST_METAPARSE_TOKEN_HPP))
    (Define BOOST_METAPARSE_TOKEN_HPP 0 ;;
      Include h_v1_token ;;
      Says (Uses n_v1_token) ;;
      Says (Declares n_token) ;;
      Done)
    (Done) Done.
(** include/boost/metaparse/v1/transform_error.hpp:1-40 *)
Definition c_v1_transform_error : code :=
  If (Not (Defined BOOST_METAPARSE_V1_TRANSFORM_ERROR_HPP))
    (Define BOOST_METAPARSE_V1_TRANSFORM_ERROR_HPP 0 ;;
      Include h_v1_is_error ;;
      Says (Defines n_v1_transform_error) ;;
      Says (Uses n_v1_is_error) ;;
      Says (Uses n_v1_transform_error) ;;
      Done)
    (Done) Done.
(** include/boost/metaparse/transform_error.hpp:1-21 *)
Definition c_transform_error : code :=
  If (Not (Defined BOOST_METAPARSE_TRANSFORM_ERROR_HPP))
    (Define BOOST_METAPARSE_TRANSFORM_ERROR_HPP 0 ;;
      Include h_v1_transform_error ;;
      Says (Uses n_v1_transform_error) ;;
      Says (Declares n_transform_error) ;;
      Done)
    (Done) Done.
(** include/boost/metaparse/transform_error_message.hpp:1-21 *)
Definition c_transform_error_message : code :=
  If (Not (Defined BOOST_METAPARSE_TRANSFORM_ERROR_MESSAGE_HPP))
    (Define BOOST_METAPARSE_TRANSFORM_ERROR_MESSAGE_HPP 0 ;;
      Include h_v1_transform_error_message ;;
      Says (Uses n_v1_transform_error_message) ;;
      Says (Declares n_transform_error_message) ;;
      Done)
    (Done) Done.
(** include/boost/metaparse/transform.hpp:1-20 *)
Definition c_transform : code :=
  If (Not (Defined BOOST_METAPARSE_TRANSFORM_HPP))
    (Define BOOST_METAPARSE_TRANSFORM_HPP 0 ;;
      Include h_v1_transform ;;
      Says (Uses n_v1_transform) ;;
      Says (Declares n_transform) ;;
      Done)
    (Done) Done.
(** include/boost/metaparse/unless_error.hpp:1-20 *)
Definition c_unless_error : code :=
  If (Not (Defined BOOST_METAPARSE_UTIL_UNLESS_ERROR_HPP))
    (Define BOOST_METAPARSE_UTIL_UNLESS_ERROR_HPP 0 ;;
      Include h_v1_unless_error ;;
      Says (Uses n_v1_unless_error) ;;
      Says (Declares n_unless_error) ;;
      Done)
    (Done) Done.
(** include/boost/metaparse/util/digit_to_int_c.hpp:1-23 *)
Definition c_util_digit_to_int_c : code :=
  If (Not (Defined BOOST_METAPARSE_UTIL_DIGIT_TO_INT_C_HPP))
    (Define BOOST_METAPARSE_UTIL_DIGIT_TO_INT_C_HPP 0 ;;
      Include h_v1_util_digit_to_int_c ;;
      Says (Uses n_v1_util_digit_to_int_c) ;;
      Says (Declares n_util_digit_to_int_c) ;;
      Done)
    (Done) Done.
(** include/boost/metaparse/util/digit_to_int.hpp:1-23 *)
Definition c_util_digit_to_int : code :=
  If (Not (Defined BOOST_METAPARSE_UTIL_DIGIT_TO_INT_HPP))
    (Define BOOST_METAPARSE_UTIL_DIGIT_TO_INT_HPP 0 ;;
      Include h_v1_util_digit_to_int ;;
      Says (Uses n_v1_util_digit_to_int) ;;
      Says (Declares n_util_digit_to_int) ;;
      Done)
    (Done) Done.
(** include/boost/metaparse/util/in_range_c.hpp:1-23 *)
Definition c_util_in_range_c : code :=
  If (Not (Defined BOOST_METAPARSE_UTIL_IN_RANGE_C_HPP))
    (Define BOOST_METAPARSE_UTIL_IN_RANGE_C_HPP 0 ;;
      Include h_v1_util_in_range_c ;;
      Says (Uses n_v1_util_in_range_c) ;;
      Says (Declares n_util_in_range_c) ;;
      Done)
    (Done) Done.
(** include/boost/metaparse/v1/util/in_range.hpp:1-75 *)
Definition c_v1_util_in_range : code :=
  If (Not (Defined BOOST_METAPARSE_V1_UTIL_IN_RANGE_HPP))
    (Define BOOST_METAPARSE_V1_UTIL_IN_RANGE_HPP 0 ;;
      Says (Defines n_v1_util_in_range) ;;
      Says (Uses n_v1_util_in_range) ;;
      Done)
    (Done) Done.
(** include/boost/metaparse/util/in_range.hpp:1-23 *)
Definition c_util_in_range : code :=
  If (Not (Defined BOOST_METAPARSE_UTIL_IN_RANGE_HPP))
    (Define BOOST_METAPARSE_UTIL_IN_RANGE_HPP 0 ;;
      Include h_v1_util_in_range ;;
      Says (Uses n_v1_util_in_range) ;;
      Says (Declares n_util_in_range) ;;
      Done)
    (Done) Done.
(** include/boost/metaparse/v1/util/int_to_digit_c.hpp:1-38 *)
Definition c_v1_util_int_to_digit_c : code :=
  If (Not (Defined BOOST_METAPARSE_V1_UTIL_INT_TO_DIGIT_C_HPP))
    (Define BOOST_METAPARSE_V1_UTIL_INT_TO_DIGIT_C_HPP 0 ;;
      Says (Declares n_v1_util_int_to_digit_c) ;;
      Says (Uses n_v1_util_int_to_digit_c) ;;
      Done)
    (Done) Done.
(** include/boost/metaparse/util/int_to_digit_c.hpp:1-23 *)
Definition c_util_int_to_digit_c : code :=
  If (Not (Defined BOOST_METAPARSE_UTIL_INT_TO_DIGIT_C_HPP))
    (Define BOOST_METAPARSE_UTIL_INT_TO_DIGIT_C_HPP 0 ;;
      Include h_v1_util_int_to_digit_c ;;
      Says (Uses n_v1_util_int_to_digit_c) ;;
      Says (Declares n_util_int_to_digit_c) ;;
      Done)
    (Done) Done.
(** include/boost/metaparse/v1/util/int_to_digit.hpp:1-38 *)
Definition c_v1_util_int_to_digit : code :=
  If (Not (Defined BOOST_METAPARSE_V1_UTIL_INT_TO_DIGIT_HPP))
    (Define BOOST_METAPARSE_V1_UTIL_INT_TO_DIGIT_HPP 0 ;;
      Include h_v1_util_int_to_digit_c ;;
      Says (Defines n_v1_util_int_to_digit) ;;
      Says (Uses n_v1_util_int_to_digit_c) ;;
      Says (Uses n_v1_util_int_to_digit) ;;
      Done)
    (Done) Done.
(** include/boost/metaparse/util/int_to_digit.hpp:1-23 *)
Definition c_util_int_to_digit : code :=
  If (Not (Defined BOOST_METAPARSE_UTIL_INT_TO_DIGIT_HPP))
    (Define BOOST_METAPARSE_UTIL_INT_TO_DIGIT_HPP 0 ;;
      Include h_v1_util_int_to_digit ;;
      Says (Uses n_v1_util_int_to_digit) ;;
      Says (Declares n_util_int_to_digit) ;;
      Done)
    (Done) Done.
(** include/boost/metaparse/util/is_digit.hpp:1-23 *)
Definition c_util_is_digit : code :=
  If (Not (Defined BOOST_METAPARSE_UTIL_IS_DIGIT_HPP))
    (Define BOOST_METAPARSE_UTIL_IS_DIGIT_HPP 0 ;;
      Include h_v1_util_is_digit ;;
      Says (Uses n_v1_util_is_digit) ;;
      Says (Declares n_util_is_digit) ;;
      Done)
    (Done) Done.
(** include/boost/metaparse/util/is_lcase_letter.hpp:1-23 *)
Definition c_util_is_lcase_letter : code :=
  If (Not (Defined BOOST_METAPARSE_UTIL_IS_LCASE_LETTER_HPP))
    (Define BOOST_METAPARSE_UTIL_IS_LCASE_LETTER_HPP 0 ;;
      Include h_v1_util_is_lcase_letter ;;
      Says (Uses n_v1_util_is_lcase_letter) ;;
      Says (Declares n_util_is_lcase_letter) ;;
      Done)
    (Done) Done.
(** include/boost/metaparse/util/is_letter.hpp:1-23 *)
Definition c_util_is_letter : code :=
  If (Not (Defined BOOST_METAPARSE_UTIL_IS_LETTER_HPP))
    (Define BOOST_METAPARSE_UTIL_IS_LETTER_HPP 0 ;;
      Include h_v1_util_is_letter ;;
      Says (Uses n_v1_util_is_letter) ;;
      Says (Declares n_util_is_letter) ;;
      Done)
    (Done) Done.
(** include/boost/metaparse/util/is_ucase_letter.hpp:1-23 *)
Definition c_util_is_ucase_letter : code :=
  If (Not (Defined BOOST_METAPARSE_UTIL_IS_UCASE_LETTER_HPP))
    (Define BOOST_METAPARSE_UTIL_IS_UCASE_LETTER_HPP 0 ;;
      Include h_v1_util_is_ucase_letter ;;
      Says (Uses n_v1_util_is_ucase_letter) ;;
      Says (Declares n_util_is_ucase_letter) ;;
      Done)
    (Done) Done.
(** include/boost/metaparse/util/is_whitespace_c.hpp:1-23 *)
Definition c_util_is_whitespace_c : code :=
  If (Not (Defined BOOST_METAPARSE_UTIL_IS_WHITESPACE_C_HPP))
    (Define BOOST_METAPARSE_UTIL_IS_WHITESPACE_C_HPP 0 ;;
      Include h_v1_util_is_whitespace_c ;;
      Says (Uses n_v1_util_is_whitespace_c) ;;
      Says (Declares n_util_is_whitespace_c) ;;
      Done)
    (Done) Done.
(** include/boost/metaparse/util/is_whitespace.hpp:1-23 *)
Definition c_util_is_whitespace : code :=
  If (Not (Defined BOOST_METAPARSE_UTIL_IS_WHITESPACE_HPP))
    (Define BOOST_METAPARSE_UTIL_IS_WHITESPACE_HPP 0 ;;
      Include h_v1_util_is_whitespace ;;
      Says (Uses n_v1_util_is_whitespace) ;;
      Says (Declares n_util_is_whitespace) ;;
      Done)
    (Done) Done.
(** include/boost/metaparse/version.hpp:1-14 *)
Definition c_version : code :=
  If (Not (Defined BOOST_METAPARSE_VERSION_HPP))
    (Define BOOST_METAPARSE_VERSION_HPP 0 ;;
      Define BOOST_METAPARSE_VERSION 0 ;;
      Done)
    (Done) Done.
(** include/boost/metaparse.hpp:1-118 *)
Definition c_metaparse : code :=
  Include h_accept ;;
  Include h_accept_tag ;;
  Include h_accept_when ;;
  Include h_alphanum ;;
  Include h_always_c ;;
  Include h_always ;;
  Include h_repeated ;;
  Include h_repeated1 ;;
  Include h_repeated_reject_incomplete1 ;;
  Include h_repeated_reject_incomplete ;;
  Include h_repeated_one_of1 ;;
  Include h_repeated_one_of ;;
  Include h_build_parser ;;
  Include h_change_error_message ;;
  Include h_config ;;
  Include h_debug_parsing_error ;;
  Include h_define_error ;;
  Include h_digit ;;
  Include h_digit_val ;;
  Include h_empty ;;
  Include h_entire_input ;;
  Include h_error_digit_expected ;;
  Include h_error_end_of_input_expected ;;
  Include h_error_index_out_of_range ;;
  Include h_error_letter_expected ;;
  Include h_error_literal_expected ;;
  Include h_error_none_of_the_expected_cases_found ;;
  Include h_error_unexpected_character ;;
  Include h_error_unexpected_end_of_input ;;
  Include h_error_unpaired ;;
  Include h_error_whitespace_expected ;;
  Include h_except ;;
  Include h_fail_at_first_char_expected ;;
  Include h_fail ;;
  Include h_fail_tag ;;
  Include h_first_of ;;
  Include h_foldl1 ;;
  Include h_foldl_reject_incomplete ;;
  Include h_foldl_reject_incomplete1 ;;
  Include h_foldl_reject_incomplete_start_with_parser ;;
  Include h_foldl ;;
  Include h_foldl_start_with_parser ;;
  Include h_foldr1 ;;
  Include h_foldr_reject_incomplete ;;
  Include h_foldr_reject_incomplete1 ;;
  Include h_foldr ;;
  Include h_foldr_start_with_parser ;;
  Include h_get_col ;;
  Include h_get_line ;;
  Include h_get_message ;;
  Include h_get_position ;;
  Include h_get_prev_char ;;
  Include h_get_remaining ;;
  Include h_get_result ;;
  Include h_grammar ;;
  Include h_if_ ;;
  Include h_int_ ;;
  Include h_is_error ;;
  Include h_iterate_c ;;
  Include h_iterate ;;
  Include h_keyword ;;
  Include h_last_of ;;
  Include h_letter ;;
  Include h_limit_one_char_except_size ;;
  Include h_limit_one_of_size ;;
  Include h_limit_sequence_size ;;
  Include h_limit_string_size ;;
  Include h_lit_c ;;
  Include h_lit ;;
  Include h_look_ahead ;;
  Include h_middle_of ;;
  Include h_next_char ;;
  Include h_next_line ;;
  Include h_nth_of_c ;;
  Include h_nth_of ;;
  Include h_one_char_except_c ;;
  Include h_one_char_except ;;
  Include h_one_char ;;
  Include h_one_of_c ;;
  Include h_one_of ;;
  Include h_optional ;;
  Include h_range_c ;;
  Include h_range ;;
  Include h_reject ;;
  Include h_return_ ;;
  Include h_sequence ;;
  Include h_sequence_apply ;;
  Include h_source_position ;;
  Include h_source_position_tag ;;
  Include h_space ;;
  Include h_spaces ;;
  Include h_start ;;
  Include h_string ;;
  Include h_string_tag ;;
  Include h_token ;;
  Include h_transform_error ;;
  Include h_transform_error_message ;;
  Include h_transform ;;
  Include h_unless_error ;;
  Include h_util_digit_to_int_c ;;
  Include h_util_digit_to_int ;;
  Include h_util_in_range_c ;;
  Include h_util_in_range ;;
  Include h_util_int_to_digit_c ;;
  Include h_util_int_to_digit ;;
  Include h_util_is_digit ;;
  Include h_util_is_lcase_letter ;;
  Include h_util_is_letter ;;
  Include h_util_is_ucase_letter ;;
  Include h_util_is_whitespace_c ;;
  Include h_util_is_whitespace ;;
  Include h_version ;;
  Done.
(** include/boost/metaparse/v1/string_value.hpp:1-20 *)
Definition c_v1_string_value : code :=
  If (Not (Defined BOOST_METAPARSE_V1_STRING_VALUE_HPP))
    (Define BOOST_METAPARSE_V1_STRING_VALUE_HPP 0 ;;
      Include h_v1_string ;;
      If (Defined BOOST_METAPARSE_V1_STRING_VALUE)
        (Error ;;
          Done)
        (Done)
      (If (Defined BOOST_METAPARSE_V1_STRING)
        (Define BOOST_METAPARSE_V1_STRING_VALUE 0 ;;
          Says (OffersMacro BOOST_METAPARSE_V1_STRING_VALUE BOOST_METAPARSE_V1_STRING) ;;
          Done)
        (Done) Done))
    (Done) Done.
(** include/boost/metaparse/string_value.hpp:1-17 *)
Definition c_string_value : code :=
  If (Not (Defined BOOST_METAPARSE_STRING_VALUE_HPP))
    (Define BOOST_METAPARSE_STRING_VALUE_HPP 0 ;;
      Include h_v1_string_value ;;
      If (Defined BOOST_METAPARSE_STRING_VALUE)
        (Error ;;
          Done)
        (Done)
      (Define BOOST_METAPARSE_STRING_VALUE 0 ;;
      Says (OffersMacro BOOST_METAPARSE_STRING_VALUE BOOST_METAPARSE_V1_STRING_VALUE) ;;
      Done))
    (Done) Done.
(** include/boost/metaparse/v1/fwd/string.hpp:1-18 *)
Definition c_v1_fwd_string : code :=
  If (Not (Defined BOOST_METAPARSE_V1_FWD_STRING_HPP))
    (Define BOOST_METAPARSE_V1_FWD_STRING_HPP 0 ;;
      Include h_config ;;
      If (AtLeast BOOST_METAPARSE_STD 2011)
        (Include h_v1_cpp11_fwd_string ;;
          Done)
        (Include h_v1_cpp98_fwd_string ;;
          Done) Done)
    (Done) Done.
(** include/boost/metaparse/v1/impl/assert_string_length.hpp:1-31 *)
Definition c_v1_impl_assert_string_length : code :=
  If (Not (Defined BOOST_METAPARSE_V1_IMPL_ASSERT_STRING_LENGTH_HPP))
    (Define BOOST_METAPARSE_V1_IMPL_ASSERT_STRING_LENGTH_HPP 0 ;;
      Says (Defines n_v1_impl_assert_string_length) ;;
      Needs BOOST_METAPARSE_LIMIT_STRING_SIZE ;;
      Done)
    (Done) Done.
(** include/boost/metaparse/v1/impl/has_type.hpp:1-26 *)
Definition c_v1_impl_has_type : code :=
  If (Not (Defined BOOST_METAPARSE_V1_IMPL_HAS_TYPE_HPP))
    (Define BOOST_METAPARSE_V1_IMPL_HAS_TYPE_HPP 0 ;;
      Done)
    (Done) Done.
(** include/boost/metaparse/v1/impl/returns.hpp:1-28 *)
Definition c_v1_impl_returns : code :=
  If (Not (Defined BOOST_METAPARSE_V1_IMPL_RETURNS_HPP))
    (Define BOOST_METAPARSE_V1_IMPL_RETURNS_HPP 0 ;;
      Says (Defines n_v1_impl_returns) ;;
      Done)
    (Done) Done.
(** include/boost/metaparse/v1/swap.hpp:1-29 *)
Definition c_v1_swap : code :=
  If (Not (Defined BOOST_METAPARSE_V1_SWAP_HPP))
    (Define BOOST_METAPARSE_V1_SWAP_HPP 0 ;;
      Says (Defines n_v1_swap) ;;
      Says (Uses n_v1_swap) ;;
      Done)
    (Done) Done.

Definition headers : list code :=
  [c_v1_fwd_accept;
   c_v1_fwd_get_remaining;
   c_v1_fwd_get_position;
   c_v1_fwd_get_result;
   c_v1_accept_tag;
   c_v1_accept;
   c_accept;
   c_accept_tag;
   c_v1_get_result;
   c_v1_fwd_reject;
   c_v1_fwd_get_message;
   c_v1_fail_tag;
   c_v1_reject;
   c_v1_is_error;
   c_v1_accept_when;
   c_accept_when;
   c_config;
   c_v1_fail;
   c_v1_get_position;
   c_v1_cpp11_impl_eval_later_result;
   c_v1_define_error;
   c_v1_error_none_of_the_expected_cases_found;
   c_v1_cpp11_one_of;
   c_v1_cpp98_impl_later_result;
   c_v1_cpp98_impl_one_of_fwd_op;
   c_v1_cpp98_impl_one_of;
   c_limit_one_of_size;
   c_v1_cpp98_one_of;
   c_v1_one_of;
   c_v1_error_digit_expected;
   c_v1_error_unexpected_end_of_input;
   c_v1_fwd_next_char;
   c_v1_next_char;
   c_v1_fwd_next_line;
   c_v1_next_line;
   c_v1_fwd_get_prev_char;
   c_v1_get_prev_char;
   c_v1_one_char;
   c_v1_change_error_message;
   c_v1_util_in_range_c;
   c_v1_util_is_digit;
   c_v1_digit;
   c_v1_error_letter_expected;
   c_v1_util_is_ucase_letter;
   c_v1_util_is_lcase_letter;
   c_v1_util_is_letter;
   c_v1_letter;
   c_v1_alphanum;
   c_alphanum;
   c_v1_get_remaining;
   c_v1_always;
   c_v1_error_literal_expected;
   c_v1_impl_is_char_c;
   c_v1_lit_c;
   c_v1_always_c;
   c_always_c;
   c_always;
   c_v1_foldl;
   c_v1_impl_back_inserter;
   c_v1_repeated;
   c_repeated;
   c_v1_foldl1;
   c_v1_repeated1;
   c_repeated1;
   c_v1_impl_void_;
   c_v1_error_expected_to_fail;
   c_v1_fail_at_first_char_expected;
   c_v1_foldl_reject_incomplete;
   c_v1_foldl_reject_incomplete1;
   c_v1_repeated_reject_incomplete1;
   c_repeated_reject_incomplete1;
   c_v1_repeated_reject_incomplete;
   c_repeated_reject_incomplete;
   c_v1_cpp11_repeated_one_of1;
   c_v1_cpp98_repeated_one_of1;
   c_v1_repeated_one_of1;
   c_repeated_one_of1;
   c_v1_cpp11_repeated_one_of;
   c_v1_cpp98_repeated_one_of;
   c_v1_repeated_one_of;
   c_repeated_one_of;
   c_v1_fwd_build_parser;
   c_v1_fwd_source_position;
   c_v1_fwd_get_col;
   c_v1_get_col;
   c_v1_fwd_get_line;
   c_v1_get_line;
   c_v1_source_position_tag;
   c_v1_source_position;
   c_v1_start;
   c_v1_get_message;
   c_v1_build_parser;
   c_build_parser;
   c_change_error_message;
   c_v1_debug_parsing_error;
   c_debug_parsing_error;
   c_define_error;
   c_digit;
   c_v1_unless_error;
   c_v1_transform;
   c_v1_util_digit_to_int_c;
   c_v1_util_digit_to_int;
   c_v1_digit_val;
   c_digit_val;
   c_v1_error_end_of_input_expected;
   c_v1_empty;
   c_empty;
   c_v1_return_;
   c_v1_cpp11_impl_nth_of_c_skip_remaining;
   c_v1_cpp11_impl_nth_of_c;
   c_v1_error_index_out_of_range;
   c_v1_cpp11_first_of;
   c_v1_cpp98_impl_skip_seq;
   c_v1_cpp98_impl_nth_of_c_impl;
   c_limit_sequence_size;
   c_v1_cpp98_impl_nth_of_c;
   c_v1_cpp98_nth_of_c;
   c_v1_cpp98_first_of;
   c_v1_first_of;
   c_v1_entire_input;
   c_entire_input;
   c_error_digit_expected;
   c_error_end_of_input_expected;
   c_error_index_out_of_range;
   c_error_letter_expected;
   c_error_literal_expected;
   c_error_none_of_the_expected_cases_found;
   c_v1_error_unexpected_character;
   c_error_unexpected_character;
   c_error_unexpected_end_of_input;
   c_v1_error_unpaired;
   c_error_unpaired;
   c_v1_error_whitespace_expected;
   c_error_whitespace_expected;
   c_v1_except;
   c_except;
   c_fail_at_first_char_expected;
   c_fail;
   c_fail_tag;
   c_first_of;
   c_foldl1;
   c_foldl_reject_incomplete;
   c_foldl_reject_incomplete1;
   c_v1_foldl_reject_incomplete_start_with_parser;
   c_foldl_reject_incomplete_start_with_parser;
   c_foldl;
   c_v1_foldl_start_with_parser;
   c_foldl_start_with_parser;
   c_v1_foldr_start_with_parser;
   c_v1_foldr;
   c_v1_foldr1;
   c_foldr1;
   c_v1_foldr_reject_incomplete;
   c_foldr_reject_incomplete;
   c_v1_foldr_reject_incomplete1;
   c_foldr_reject_incomplete1;
   c_foldr;
   c_foldr_start_with_parser;
   c_get_col;
   c_get_line;
   c_get_message;
   c_get_position;
   c_get_prev_char;
   c_get_remaining;
   c_get_result;
   c_v1_cpp11_impl_push_front_result;
   c_v1_cpp11_sequence;
   c_v1_impl_apply_parser;
   c_v1_cpp98_impl_sequence_impl;
   c_v1_cpp98_impl_sequence;
   c_v1_cpp98_sequence;
   c_v1_sequence;
   c_v1_lit;
   c_v1_util_is_whitespace_c;
   c_v1_util_is_whitespace;
   c_v1_space;
   c_v1_token;
   c_v1_keyword;
   c_v1_cpp11_nth_of_c;
   c_v1_nth_of_c;
   c_v1_cpp11_nth_of;
   c_v1_cpp98_nth_of;
   c_v1_nth_of;
   c_v1_transform_error_message;
   c_v1_middle_of;
   c_v1_cpp11_last_of;
   c_v1_cpp98_last_of;
   c_v1_last_of;
   c_v1_cpp11_impl_is_none_c_impl;
   c_v1_cpp11_impl_is_none_c;
   c_v1_cpp11_one_char_except_c;
   c_limit_one_char_except_size;
   c_v1_cpp98_impl_is_none;
   c_v1_cpp98_one_char_except_c;
   c_v1_one_char_except_c;
   c_v1_cpp11_fwd_string;
   c_v1_string_tag;
   c_v1_impl_string_iterator_tag;
   c_v1_cpp11_impl_at_c;
   c_limit_string_size;
   c_v1_impl_no_char;
   c_v1_cpp98_fwd_string;
   c_v1_cpp98_impl_at_c;
   c_v1_impl_at_c;
   c_v1_impl_string_iterator;
   c_v1_cpp11_impl_empty_string;
   c_v1_cpp11_impl_size;
   c_v1_cpp11_impl_pop_front;
   c_v1_cpp11_impl_push_front_c;
   c_v1_cpp11_impl_push_back_c;
   c_v1_cpp11_impl_pop_back;
   c_v1_cpp11_impl_string_at;
   c_v1_cpp11_impl_concat;
   c_v1_cpp11_impl_string;
   c_v1_cpp11_string;
   c_v1_cpp98_impl_empty_string;
   c_v1_cpp98_impl_size;
   c_v1_cpp98_impl_pop_front;
   c_v1_cpp98_impl_push_front_c;
   c_v1_cpp98_impl_update_c;
   c_v1_cpp98_impl_push_back_c;
   c_v1_cpp98_impl_pop_back;
   c_v1_cpp98_string;
   c_v1_string;
   c_v1_impl_front_inserter;
   c_v1_grammar;
   c_grammar;
   c_v1_if_;
   c_if_;
   c_v1_impl_next_digit;
   c_v1_int_;
   c_int_;
   c_is_error;
   c_v1_impl_fwd_iterate_impl;
   c_v1_impl_iterate_impl_unchecked;
   c_v1_impl_iterate_impl;
   c_v1_iterate_c;
   c_iterate_c;
   c_v1_iterate;
   c_iterate;
   c_keyword;
   c_last_of;
   c_letter;
   c_lit_c;
   c_lit;
   c_v1_look_ahead;
   c_look_ahead;
   c_middle_of;
   c_next_char;
   c_next_line;
   c_nth_of_c;
   c_nth_of;
   c_one_char_except_c;
   c_v1_cpp11_one_char_except;
   c_v1_cpp98_impl_one_char_except_not_used;
   c_v1_cpp98_one_char_except;
   c_v1_one_char_except;
   c_one_char_except;
   c_one_char;
   c_v1_cpp14_impl_any_of_c;
   c_v1_cpp14_one_of_c;
   c_v1_cpp11_impl_or_c;
   c_v1_cpp11_impl_any_of_c;
   c_v1_cpp11_one_of_c;
   c_v1_cpp98_one_of_c;
   c_v1_one_of_c;
   c_one_of_c;
   c_one_of;
   c_v1_optional;
   c_optional;
   c_v1_range_c;
   c_range_c;
   c_v1_range;
   c_range;
   c_reject;
   c_return_;
   c_sequence;
   c_v1_sequence_apply;
   c_sequence_apply;
   c_source_position;
   c_source_position_tag;
   c_space;
   c_v1_spaces;
   c_spaces;
   c_start;
   c_string_tag;
   c_string;
   c_token;
   c_v1_transform_error;
   c_transform_error;
   c_transform_error_message;
   c_transform;
   c_unless_error;
   c_util_digit_to_int_c;
   c_util_digit_to_int;
   c_util_in_range_c;
   c_v1_util_in_range;
   c_util_in_range;
   c_v1_util_int_to_digit_c;
   c_util_int_to_digit_c;
   c_v1_util_int_to_digit;
   c_util_int_to_digit;
   c_util_is_digit;
   c_util_is_lcase_letter;
   c_util_is_letter;
   c_util_is_ucase_letter;
   c_util_is_whitespace_c;
   c_util_is_whitespace;
   c_version;
   c_metaparse;
   c_v1_string_value;
   c_string_value;
   c_v1_fwd_string;
   c_v1_impl_assert_string_length;
   c_v1_impl_has_type;
   c_v1_impl_returns;
   c_v1_swap].

(** The files below include/boost/metaparse/v1/cpp98. *)
Definition headers_98 : list file :=
  [h_v1_cpp98_impl_later_result;
   h_v1_cpp98_impl_one_of_fwd_op;
   h_v1_cpp98_impl_one_of;
   h_v1_cpp98_one_of;
   h_v1_cpp98_repeated_one_of1;
   h_v1_cpp98_repeated_one_of;
   h_v1_cpp98_impl_skip_seq;
   h_v1_cpp98_impl_nth_of_c_impl;
   h_v1_cpp98_impl_nth_of_c;
   h_v1_cpp98_nth_of_c;
   h_v1_cpp98_first_of;
   h_v1_cpp98_impl_sequence_impl;
   h_v1_cpp98_impl_sequence;
   h_v1_cpp98_sequence;
   h_v1_cpp98_nth_of;
   h_v1_cpp98_last_of;
   h_v1_cpp98_impl_is_none;
   h_v1_cpp98_one_char_except_c;
   h_v1_cpp98_fwd_string;
   h_v1_cpp98_impl_at_c;
   h_v1_cpp98_impl_empty_string;
   h_v1_cpp98_impl_size;
   h_v1_cpp98_impl_pop_front;
   h_v1_cpp98_impl_push_front_c;
   h_v1_cpp98_impl_update_c;
   h_v1_cpp98_impl_push_back_c;
   h_v1_cpp98_impl_pop_back;
   h_v1_cpp98_string;
   h_v1_cpp98_impl_one_char_except_not_used;
   h_v1_cpp98_one_char_except;
   h_v1_cpp98_one_of_c].

(** The files below include/boost/metaparse/v1/cpp11. *)
Definition headers_11 : list file :=
  [h_v1_cpp11_impl_eval_later_result;
   h_v1_cpp11_one_of;
   h_v1_cpp11_repeated_one_of1;
   h_v1_cpp11_repeated_one_of;
   h_v1_cpp11_impl_nth_of_c_skip_remaining;
   h_v1_cpp11_impl_nth_of_c;
   h_v1_cpp11_first_of;
   h_v1_cpp11_impl_push_front_result;
   h_v1_cpp11_sequence;
   h_v1_cpp11_nth_of_c;
   h_v1_cpp11_nth_of;
   h_v1_cpp11_last_of;
   h_v1_cpp11_impl_is_none_c_impl;
   h_v1_cpp11_impl_is_none_c;
   h_v1_cpp11_one_char_except_c;
   h_v1_cpp11_fwd_string;
   h_v1_cpp11_impl_at_c;
   h_v1_cpp11_impl_empty_string;
   h_v1_cpp11_impl_size;
   h_v1_cpp11_impl_pop_front;
   h_v1_cpp11_impl_push_front_c;
   h_v1_cpp11_impl_push_back_c;
   h_v1_cpp11_impl_pop_back;
   h_v1_cpp11_impl_string_at;
   h_v1_cpp11_impl_concat;
   h_v1_cpp11_impl_string;
   h_v1_cpp11_string;
   h_v1_cpp11_one_char_except;
   h_v1_cpp11_impl_or_c;
   h_v1_cpp11_impl_any_of_c;
   h_v1_cpp11_one_of_c].

(** The files below include/boost/metaparse/v1/cpp14. *)
Definition headers_14 : list file :=
  [h_v1_cpp14_impl_any_of_c;
   h_v1_cpp14_one_of_c].
