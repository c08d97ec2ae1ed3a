{"id": "C01", "title": "Accepted remainder is a suffix of the input", "statement": "Whenever a parser built from the library's parsers and combinators accepts an input, the remaining string it returns is a suffix of the input it was given: no combinator reorders, duplicates, skips-and-restores or invents characters.", "quantifier": "every parser expression (arbitrary nesting, arbitrary recursion through named parsers, arbitrary semantic actions), every input string, every start position, every instantiation depth", "why_tests_cant": "The claim ranges over infinitely many inputs/parsers; a test fixes one parser and one string.", "anchors": ["include/boost/metaparse/v1/accept.hpp:accept", "include/boost/metaparse/v1/one_char.hpp:one_char", "include/boost/metaparse/v1/cpp11/sequence.hpp:sequence", "include/boost/metaparse/v1/foldr_start_with_parser.hpp:foldr_start_with_parser", "include/boost/metaparse/v1/look_ahead.hpp:look_ahead"]}
{"id": "C02", "title": "Returned position is the start position advanced over exactly the consumed text", "statement": "Whenever a library-built parser accepts, the source position in the result is the start position advanced character by character over the consumed prefix; position and remaining text can never drift apart.", "quantifier": "every parser expression, every input string, every start position", "why_tests_cant": "The claim ranges over infinitely many inputs/parsers; tests never check position and remainder together for nested combinators.", "anchors": ["include/boost/metaparse/v1/one_char.hpp:one_char::next_pos", "include/boost/metaparse/v1/source_position_tag.hpp", "include/boost/metaparse/v1/get_position.hpp:get_position"]}
{"id": "C03", "title": "Error positions lie inside the text that was looked at", "statement": "Whenever a library-built parser rejects, the error position is the start position advanced over some prefix of the input: it is never before the start position and never past the end of the input.", "quantifier": "every parser expression without a position-rewriting transform_error, every input, every start position", "why_tests_cant": "The claim ranges over infinitely many inputs/parsers; wrong error positions only show up for particular nestings.", "anchors": ["include/boost/metaparse/v1/reject.hpp:reject", "include/boost/metaparse/v1/change_error_message.hpp", "include/boost/metaparse/v1/cpp11/impl/eval_later_result.hpp", "include/boost/metaparse/v1/cpp98/impl/later_result.hpp"]}
{"id": "C04", "title": "Positions strictly increase with consumption, so position equality means nothing was consumed", "statement": "Consuming a non-empty text from any position gives a strictly greater position (boost::mpl::less), and among positions reached on one input the order of positions is the order of the amounts consumed. Hence the test `error position == start position` used by the *_reject_incomplete parsers and by fail_at_first_char_expected decides exactly whether the failing parser got stuck on its first character.", "quantifier": "every start position and every pair of prefixes of every input", "why_tests_cant": "The claim ranges over infinitely many inputs/parsers; requires an order argument over all texts including CR/LF mixtures.", "anchors": ["include/boost/metaparse/v1/source_position.hpp", "include/boost/metaparse/v1/fail_at_first_char_expected.hpp", "include/boost/metaparse/v1/foldl_reject_incomplete.hpp"]}
{"id": "C05", "title": "Line numbers count line terminators", "statement": "Starting from `start`, after consuming a text w the line is 1 plus the number of line terminators of w, where LF, CR and CR LF each count as one terminator.", "quantifier": "every text", "why_tests_cant": "The claim ranges over infinitely many inputs/parsers; CR/LF interplay depends on unbounded context via prev_char.", "anchors": ["include/boost/metaparse/v1/one_char.hpp:next_pos", "include/boost/metaparse/v1/start.hpp:start", "include/boost/metaparse/v1/next_line.hpp", "include/boost/metaparse/v1/next_char.hpp"]}
{"id": "C06", "title": "Column numbers count characters since the line began", "statement": "After consuming a text w from `start`, the column is 1 plus the length of the last (unterminated) line of w if the last line terminator of w is not CR LF (or there is none), and one more than that if it is CR LF. The simple claim 'the column is 1 plus the length of the last line for every text' is false and is refuted with a witness.", "quantifier": "every text", "why_tests_cant": "The claim ranges over infinitely many inputs/parsers; the defect is only visible for texts whose last terminator is CR LF.", "anchors": ["include/boost/metaparse/v1/one_char.hpp:next_pos", "include/boost/metaparse/v1/source_position_tag.hpp:next_char_impl", "include/boost/metaparse/v1/source_position_tag.hpp:next_line_impl"]}
{"id": "C07", "title": "Source position comparisons form one strict total order", "statement": "less on source positions is a strict total order whose equality is equal_to; not_equal_to, greater, greater_equal and less_equal are the relations derived from it.", "quantifier": "all triples of source positions", "why_tests_cant": "The claim ranges over infinitely many inputs/parsers; transitivity/totality cannot be sampled.", "anchors": ["include/boost/metaparse/v1/source_position.hpp", "include/boost/metaparse/v1/source_position_fwd.hpp"]}
{"id": "C08", "title": "foldl applies the parser until it rejects and folds the results from the left", "statement": "foldl<p, state, op> never rejects. It accepts with (v, rest, pos) exactly when repeated application of p accepts with some list of results and is then rejected at (rest, pos), and v is the left fold of op over that list starting from state.", "quantifier": "every parser p, every initial state, every operation (including partial ones), every input and position", "why_tests_cant": "The claim ranges over infinitely many inputs/parsers; the number of iterations is unbounded.", "anchors": ["include/boost/metaparse/v1/foldl.hpp:foldl", "include/boost/metaparse/v1/impl/back_inserter.hpp"]}
{"id": "C09", "title": "foldr applies the parser until it rejects and folds the results from the right", "statement": "foldr<p, state, op> accepts with (v, rest, pos) exactly when repeated application of p accepts with a list of results and is then rejected at (rest, pos), and v is the reverse fold of op over that list; foldr with the front inserter gives the same sequence as repeated.", "quantifier": "every parser p, state, operation, input and position", "why_tests_cant": "The claim ranges over infinitely many inputs/parsers; the number of iterations is unbounded.", "anchors": ["include/boost/metaparse/v1/foldr.hpp:foldr", "include/boost/metaparse/v1/foldr_start_with_parser.hpp", "include/boost/metaparse/v1/impl/front_inserter.hpp"]}
{"id": "C10", "title": "start_with_parser folds", "statement": "foldl_start_with_parser<p, state_p, op> rejects exactly as state_p rejects, otherwise folds p from state_p's result; foldr_start_with_parser<p, state_p, op> runs state_p after the last accepted application of p, at the place where p first rejects, and rejects exactly as state_p rejects there; foldl_reject_incomplete_start_with_parser combines the first with rejection of incomplete elements. The two left folds take the ::type of state_p's result, so with a state_p that returns void (such as optional's default) they do not compile, though foldr_start_with_parser does (refuted).", "quantifier": "every p, state_p, op, input and position", "why_tests_cant": "The claim ranges over infinitely many inputs/parsers; the number of iterations is unbounded.", "anchors": ["include/boost/metaparse/v1/foldl_start_with_parser.hpp", "include/boost/metaparse/v1/foldr_start_with_parser.hpp", "include/boost/metaparse/v1/foldl_reject_incomplete_start_with_parser.hpp"]}
{"id": "C11", "title": "The 1-variants need one element and keep its error", "statement": "foldl1, foldr1, repeated1 (and their reject_incomplete versions) reject with exactly p's error when the first application of p rejects, and otherwise behave as the variant without 1.", "quantifier": "every p, state, op, input and position", "why_tests_cant": "The claim ranges over infinitely many inputs/parsers; equality of two parsers on all inputs.", "anchors": ["include/boost/metaparse/v1/foldl1.hpp", "include/boost/metaparse/v1/foldr1.hpp", "include/boost/metaparse/v1/repeated1.hpp", "include/boost/metaparse/v1/foldl_reject_incomplete1.hpp", "include/boost/metaparse/v1/foldr_reject_incomplete1.hpp", "include/boost/metaparse/v1/repeated_reject_incomplete1.hpp"]}
{"id": "C12", "title": "The reject_incomplete variants reject exactly on partially matching elements", "statement": "foldl_reject_incomplete, foldr_reject_incomplete and repeated_reject_incomplete accept exactly when the application of p that ends the iteration failed on its very first character, with the result of the plain variant; otherwise they reject with that application's error.", "quantifier": "every p, state, op, input and position", "why_tests_cant": "The claim ranges over infinitely many inputs/parsers; the iteration may end anywhere.", "anchors": ["include/boost/metaparse/v1/foldl_reject_incomplete.hpp", "include/boost/metaparse/v1/foldr_reject_incomplete.hpp", "include/boost/metaparse/v1/repeated_reject_incomplete.hpp", "include/boost/metaparse/v1/fail_at_first_char_expected.hpp"]}
{"id": "C13", "title": "repeated collects the results in input order", "statement": "repeated<p> accepts with the sequence of the results of the successive successful applications of p, in input order, and stops where p first rejects; with repeated1 the sequence is non-empty.", "quantifier": "every p, input and position", "why_tests_cant": "The claim ranges over infinitely many inputs/parsers; the number of elements is unbounded.", "anchors": ["include/boost/metaparse/v1/repeated.hpp:repeated", "include/boost/metaparse/v1/repeated1.hpp:repeated1", "include/boost/metaparse/v1/impl/back_inserter.hpp"]}
{"id": "C14", "title": "Repetition terminates exactly when the element makes progress", "statement": "If every acceptance of p consumes at least one character then every fold/repetition of p terminates on every input with recursion depth at most the length of the input plus one; if p accepts without consuming at a point that is reached, the repetition never terminates (infinite template recursion).", "quantifier": "every p, op, state and input", "why_tests_cant": "Non-termination cannot be observed by a finite test and termination must be shown for all inputs.", "anchors": ["include/boost/metaparse/v1/foldl.hpp", "include/boost/metaparse/v1/foldr_start_with_parser.hpp", "include/boost/metaparse/v1/foldl_reject_incomplete.hpp", "include/boost/metaparse/v1/repeated.hpp"]}
{"id": "C15", "title": "sequence runs its parsers one after the other and collects the results", "statement": "sequence<p1..pn> accepts exactly when p1..pn accept one after the other, each starting where the previous one stopped; the result is the sequence of the n results in order; otherwise it rejects with the error of the first parser that rejects. The C++98 and the variadic implementation agree on 1..limit-1 parsers.", "quantifier": "every n, every list of parsers, every input and position", "why_tests_cant": "The claim ranges over infinitely many inputs/parsers; arity and parsers are arbitrary.", "anchors": ["include/boost/metaparse/v1/cpp11/sequence.hpp", "include/boost/metaparse/v1/cpp98/sequence.hpp", "include/boost/metaparse/v1/cpp98/impl/sequence_impl.hpp", "include/boost/metaparse/v1/impl/apply_parser.hpp"]}
{"id": "C16", "title": "nth_of_c, first_of and last_of select one result of a sequence", "statement": "nth_of_c<k, p1..pn> with 0<=k<n equals sequence<p1..pn> followed by selecting the k-th result; first_of and last_of select the first and the last. With k out of range every input is rejected at the start position with index_out_of_range<0,n-1,k>, without running any of the parsers. C++98 and variadic implementations agree.", "quantifier": "every k, n, list of parsers, input and position", "why_tests_cant": "The claim ranges over infinitely many inputs/parsers; arity and parsers are arbitrary.", "anchors": ["include/boost/metaparse/v1/cpp11/nth_of_c.hpp", "include/boost/metaparse/v1/cpp11/impl/nth_of_c.hpp", "include/boost/metaparse/v1/cpp11/impl/nth_of_c_skip_remaining.hpp", "include/boost/metaparse/v1/cpp98/nth_of_c.hpp", "include/boost/metaparse/v1/cpp98/impl/nth_of_c_impl.hpp", "include/boost/metaparse/v1/cpp98/impl/skip_seq.hpp", "include/boost/metaparse/v1/cpp11/first_of.hpp", "include/boost/metaparse/v1/cpp11/last_of.hpp", "include/boost/metaparse/v1/cpp98/last_of.hpp"]}
{"id": "C17", "title": "one_of is ordered choice", "statement": "If all alternatives can be instantiated, one_of<p1..pn> accepts exactly when some alternative accepts, with exactly the result of the first accepting one; it rejects when all reject, at the furthest of the alternatives' error positions. C++98 and variadic implementations agree on acceptance and error position.", "quantifier": "every list of parsers, input and position", "why_tests_cant": "The claim ranges over infinitely many inputs/parsers; arity and parsers are arbitrary.", "anchors": ["include/boost/metaparse/v1/cpp11/one_of.hpp", "include/boost/metaparse/v1/cpp11/impl/eval_later_result.hpp", "include/boost/metaparse/v1/cpp98/impl/one_of.hpp", "include/boost/metaparse/v1/cpp98/impl/one_of_fwd_op.hpp", "include/boost/metaparse/v1/cpp98/impl/later_result.hpp"]}
{"id": "C18", "title": "one_of error message selection", "statement": "When all alternatives reject, one_of reports the error that made the most progress (the last one of them on ties); the C++98 implementation reports that message always, the variadic one only if some alternative made progress and none_of_the_expected_cases_found at the start position otherwise. The simple claim 'both implementations report the same message' is therefore false and is refuted with a witness. As a consequence a last alternative fail<m> (the tutorial's way to give a better message) has no effect at all in the variadic implementation; in C++98 m is reported exactly if no alternative made progress.", "quantifier": "every list of parsers, input and position", "why_tests_cant": "The claim ranges over infinitely many inputs/parsers; the two implementations are never compiled together.", "anchors": ["include/boost/metaparse/v1/cpp11/one_of.hpp", "include/boost/metaparse/v1/cpp98/impl/one_of_fwd_op.hpp", "include/boost/metaparse/v1/cpp98/impl/later_result.hpp"]}
{"id": "C19", "title": "one_of instantiates every alternative", "statement": "The reference says one_of<p1..pn> behaves as the first accepting alternative. The implementation nevertheless instantiates all alternatives: if a later alternative is ill-formed or does not terminate on the input, one_of is too, even when an earlier alternative accepts.", "quantifier": "every list of alternatives and input", "why_tests_cant": "An ill-formed program cannot be a passing unit test.", "anchors": ["include/boost/metaparse/v1/cpp11/one_of.hpp", "include/boost/metaparse/v1/cpp98/impl/one_of_fwd_op.hpp", "doc/one_of.qbk"]}
{"id": "C20", "title": "Documented equivalences of combinators", "statement": "The equivalences in the reference hold for all inputs: always<p,t> = last_of<p,return_<t>>; optional<p,d> = one_of<p,return_<d>>; empty<r> = except<one_char,r,end_of_input_expected>; foldl1 = last_of<look_ahead<p>,foldl>; repeated1 = last_of<look_ahead<p>,repeated<p>>; foldl_reject_incomplete = first_of<foldl,fail_at_first_char_expected<p>>; foldr_reject_incomplete = first_of<foldr,fail_at_first_char_expected<p>>; keyword = last_of<lit...,return_<r>>; entire_input = first_of<p,change_error_message<empty,e>>; iterate_c<p,n> = sequence<p,...,p>; first_of<ps> = nth_of_c<0,ps>; the ..._reject_incomplete equivalences hold for total fold operations (foldl_reject_incomplete_start_with_parser: and a state parser that never returns void), and for all operations wherever the fold can be instantiated; elsewhere foldl_reject_incomplete may reject instead of being ill-formed (refuted).", "quantifier": "every argument parser, result, message, input and position", "why_tests_cant": "Equality of two parsers on all inputs.", "anchors": ["doc/always.qbk", "doc/optional.qbk", "doc/empty.qbk", "doc/foldl1.qbk", "doc/repeated1.qbk", "doc/foldl_reject_incomplete.qbk", "doc/keyword.qbk", "doc/entire_input.qbk", "doc/iterate_c.qbk"]}
{"id": "C21", "title": "Documented equivalences that the code does not satisfy", "statement": "The reference also states: if_<p,t,f> = one_of<last_of<p,return_<t>>,return_<f>>; one_of_c<c1..cn> = one_of<lit_c<c1>..>; middle_of<p1,p2,p3> = nth_of<1,p1,p2,p3>; token<p> = first_of<p,spaces>; accept_when rejects with its own message; lit and digit reject the empty input with unexpected_end_of_input; alphanum = one_of<letter,digit> also in the message; last_of<p1..pn> = nth_of<n,p1..pn>; int_ folds with the operation as written; repeated folds with push_back on the elements; sequence_apply keeps the remaining string. Each of these fails for some parser and input; the exact relation that does hold is proved instead.", "quantifier": "every argument parser, input and position", "why_tests_cant": "Tests exercise the code, not the reference manual's equations.", "anchors": ["doc/if_.qbk", "doc/one_of_c.qbk", "doc/middle_of.qbk", "doc/token.qbk", "doc/accept_when.qbk", "include/boost/metaparse/v1/if_.hpp", "include/boost/metaparse/v1/middle_of.hpp", "include/boost/metaparse/v1/token.hpp", "include/boost/metaparse/v1/accept_when.hpp"]}
{"id": "C22", "title": "Predicates do not consume", "statement": "look_ahead, except, if_, optional-on-failure, fail_at_first_char_expected, empty and return_ leave the remaining input and the position untouched when they accept; look_ahead accepts iff p accepts (same result, same error), except accepts iff p rejects, if_ always accepts and selects its result by p's verdict.", "quantifier": "every parser, input and position", "why_tests_cant": "The claim ranges over infinitely many inputs/parsers; arbitrary inner parsers.", "anchors": ["include/boost/metaparse/v1/look_ahead.hpp", "include/boost/metaparse/v1/except.hpp", "include/boost/metaparse/v1/if_.hpp", "include/boost/metaparse/v1/optional.hpp", "include/boost/metaparse/v1/fail_at_first_char_expected.hpp", "include/boost/metaparse/v1/empty.hpp", "include/boost/metaparse/v1/return_.hpp"]}
{"id": "C23", "title": "entire_input accepts only complete matches", "statement": "entire_input<p, e> accepts exactly when p accepts and leaves nothing; if p rejects the error is p's; if p leaves something the error is e at the position where p stopped.", "quantifier": "every parser, message, input and position", "why_tests_cant": "The claim ranges over infinitely many inputs/parsers; arbitrary inner parsers.", "anchors": ["include/boost/metaparse/v1/entire_input.hpp", "include/boost/metaparse/v1/empty.hpp", "include/boost/metaparse/v1/change_error_message.hpp"]}
{"id": "C24", "title": "keyword accepts exactly the inputs that start with the keyword", "statement": "keyword<kw, r> accepts exactly the inputs having kw as a prefix, consumes exactly kw and returns r; otherwise it rejects with literal_expected<c> where c is the first keyword character that does not match, at the position right after the longest common prefix.", "quantifier": "every keyword, input and position", "why_tests_cant": "The claim ranges over infinitely many inputs/parsers; keyword length is unbounded.", "anchors": ["include/boost/metaparse/v1/keyword.hpp:keyword", "include/boost/metaparse/v1/lit.hpp", "include/boost/metaparse/v1/lit_c.hpp"]}
{"id": "C25", "title": "Single character parsers", "statement": "one_char, lit/lit_c, range/range_c, one_of_c, one_char_except/one_char_except_c, digit, letter, alphanum and space accept exactly when the input is non-empty and its first character is in the documented class; they consume exactly that character and return it; otherwise they reject at the start position.", "quantifier": "every character, character set, input and position", "why_tests_cant": "The claim ranges over infinitely many inputs/parsers; all characters, all sets.", "anchors": ["include/boost/metaparse/v1/one_char.hpp", "include/boost/metaparse/v1/lit_c.hpp", "include/boost/metaparse/v1/range_c.hpp", "include/boost/metaparse/v1/cpp11/one_of_c.hpp", "include/boost/metaparse/v1/cpp14/impl/any_of_c.hpp", "include/boost/metaparse/v1/cpp98/one_of_c.hpp", "include/boost/metaparse/v1/cpp11/one_char_except_c.hpp", "include/boost/metaparse/v1/digit.hpp", "include/boost/metaparse/v1/letter.hpp", "include/boost/metaparse/v1/alphanum.hpp", "include/boost/metaparse/v1/space.hpp"]}
{"id": "C26", "title": "int_ parses decimal numbers", "statement": "int_ accepts exactly the inputs starting with a digit, consumes the maximal run of digits and returns its decimal value when every intermediate value fits in int; otherwise the program is ill-formed. Parsing the decimal representation of any n in [0, INT_MAX] followed by a non-digit gives n back.", "quantifier": "every digit string, every n in [0, INT_MAX], every continuation", "why_tests_cant": "2^31 values and unbounded digit strings.", "anchors": ["include/boost/metaparse/v1/int_.hpp", "include/boost/metaparse/v1/digit_val.hpp", "include/boost/metaparse/v1/impl/next_digit.hpp", "include/boost/metaparse/v1/util/digit_to_int_c.hpp"]}
{"id": "C27", "title": "digit_to_int and int_to_digit are inverse to each other", "statement": "util::int_to_digit_c<n> is defined exactly for 0<=n<=9, util::digit_to_int_c<c> yields a number exactly for c in '0'..'9', and they are mutually inverse there. The functions of util take every integral constant (character, number, bool) by its number, and no other value.", "quantifier": "every n and every character", "why_tests_cant": "The claim ranges over infinitely many inputs/parsers; exactness of the domain.", "anchors": ["include/boost/metaparse/v1/util/digit_to_int_c.hpp", "include/boost/metaparse/v1/util/int_to_digit_c.hpp"]}
{"id": "C28", "title": "token and spaces consume all following whitespace", "statement": "token<p> accepts exactly when p accepts, returns p's result, and additionally consumes the maximal run of whitespace after it; spaces requires and consumes a maximal non-empty run of whitespace. After either one the remaining input does not start with whitespace.", "quantifier": "every parser, input and position", "why_tests_cant": "The claim ranges over infinitely many inputs/parsers; unbounded whitespace.", "anchors": ["include/boost/metaparse/v1/token.hpp", "include/boost/metaparse/v1/spaces.hpp", "include/boost/metaparse/v1/space.hpp", "include/boost/metaparse/v1/util/is_whitespace_c.hpp"]}
{"id": "C29", "title": "middle_of returns the middle and blames the opening on a missing closing", "statement": "middle_of<p1,p2,p3> accepts exactly when the three parsers accept in sequence and returns p2's result; errors of p1 and p2 are passed through; an error m of p3 becomes unpaired<L,C,m> at p3's error position where L:C is the line and column where the opening started.", "quantifier": "every p1, p2, p3, input and position", "why_tests_cant": "The claim ranges over infinitely many inputs/parsers; arbitrary inner parsers.", "anchors": ["include/boost/metaparse/v1/middle_of.hpp", "include/boost/metaparse/v1/error/unpaired.hpp", "include/boost/metaparse/v1/transform_error_message.hpp"]}
{"id": "C30", "title": "transform laws", "statement": "transform applies the function to the result of accepted parses only and changes neither errors, remaining input nor position: transforming by the identity is the parser itself and two transforms compose; transform_error_message applies to error messages only and keeps error positions; change_error_message reports at the start position; sequence_applyN = transform of sequence.", "quantifier": "every parser, functions, input and position", "why_tests_cant": "The claim ranges over infinitely many inputs/parsers; arbitrary functions.", "anchors": ["include/boost/metaparse/v1/transform.hpp", "include/boost/metaparse/v1/transform_error.hpp", "include/boost/metaparse/v1/transform_error_message.hpp", "include/boost/metaparse/v1/change_error_message.hpp", "include/boost/metaparse/v1/sequence_apply.hpp"]}
{"id": "C31", "title": "iterate_c", "statement": "iterate_c<p, n> for n>=0 accepts exactly when n applications of p in a row accept and returns the n results; a negative n is never satisfied: the recursion does not end while p accepts.", "quantifier": "every p, every n, input and position", "why_tests_cant": "n is unbounded, non-termination is not testable.", "anchors": ["include/boost/metaparse/v1/iterate_c.hpp", "include/boost/metaparse/v1/iterate.hpp", "include/boost/metaparse/v1/impl/iterate_impl.hpp", "include/boost/metaparse/v1/impl/iterate_impl_unchecked.hpp"]}
{"id": "C32", "title": "build_parser reports exactly the parse from the start position", "statement": "build_parser<p>::apply<s> yields p's result when p accepts s from line 1, column 1 (remaining input is ignored); otherwise compilation fails, reporting exactly the line, column and message of p's error.", "quantifier": "every parser and input", "why_tests_cant": "Compilation failures are not unit tests.", "anchors": ["include/boost/metaparse/v1/build_parser.hpp:build_parser", "include/boost/metaparse/v1/start.hpp"]}
{"id": "C33", "title": "Variadic string type behaves as a sequence of characters", "statement": "size, at, push_front, push_back, pop_front, pop_back, clear, equal_to, concat and c_str of the variadic string satisfy the laws of lists; iterating from begin to end visits exactly its characters in order; out of range access is ill-formed.", "quantifier": "every string, every index", "why_tests_cant": "The claim ranges over infinitely many inputs/parsers; strings are unbounded.", "anchors": ["include/boost/metaparse/v1/cpp11/string.hpp", "include/boost/metaparse/v1/cpp11/impl/at_c.hpp", "include/boost/metaparse/v1/cpp11/impl/concat.hpp", "include/boost/metaparse/v1/cpp11/impl/pop_back.hpp", "include/boost/metaparse/v1/cpp11/impl/push_back_c.hpp", "include/boost/metaparse/v1/impl/string_iterator.hpp"]}
{"id": "C34", "title": "BOOST_METAPARSE_STRING preserves every literal", "statement": "BOOST_METAPARSE_STRING(\"...\") is the string of exactly the characters of the literal (including embedded NUL characters) for every literal whose length is at most BOOST_METAPARSE_LIMIT_STRING_SIZE (itself at most 2048), and is a compilation error for longer literals; never a truncated or padded string.", "quantifier": "every literal of every length, every configured limit up to 2048", "why_tests_cant": "Lengths up to 2048 with arbitrary content and arbitrary limit settings.", "anchors": ["include/boost/metaparse/v1/cpp11/impl/string.hpp:make_string", "include/boost/metaparse/v1/cpp11/impl/string.hpp:take", "include/boost/metaparse/v1/cpp11/impl/string_at.hpp"]}
{"id": "C35", "title": "C++98 string agrees with the variadic string", "statement": "The fixed-capacity C++98 string (unused slots filled with EOF) has the same size/at/push/pop/equality behaviour as a list for strings shorter than the limit whose characters are not EOF, for every program of pushes and pops. For strings of exactly the limit length size, push_back, pop_back and empty are ill-formed and push_front drops the last character; a string ending in the EOF character is indistinguishable from the shorter string; both are proved as refutations of the unrestricted claim.", "quantifier": "every limit, every string, every operation", "why_tests_cant": "The claim ranges over infinitely many inputs/parsers; boundary conditions at the capacity are not tested.", "anchors": ["include/boost/metaparse/v1/cpp98/string.hpp", "include/boost/metaparse/v1/cpp98/impl/size.hpp", "include/boost/metaparse/v1/cpp98/impl/update_c.hpp", "include/boost/metaparse/v1/cpp98/impl/push_front_c.hpp", "include/boost/metaparse/v1/impl/no_char.hpp"]}
{"id": "C36", "title": "Result does not depend on the instantiation depth limit", "statement": "If a parser expression finishes on an input under some bound on recursion depth, it finishes with the same outcome under every larger bound; an accepted/rejected verdict is therefore unique.", "quantifier": "every parser expression, input, position and every pair of depth bounds", "why_tests_cant": "A compiler has one fixed depth limit.", "anchors": ["include/boost/metaparse/v1/foldl.hpp", "include/boost/metaparse/v1/foldr_start_with_parser.hpp", "include/boost/metaparse/v1/impl/iterate_impl.hpp"]}
{"id": "C37", "title": "C++98 and C++11 builds accept the same language with the same results", "statement": "For every parser expression within the C++98 arity limits, the C++98 and C++11/14 builds of the library give the same acceptance, result, remaining string, position and the same error position; only error messages may differ. Where they do, the C++11/14 build says only that no case was found, or (one_of_c) that the input ended, or gives another index for last_of<>, possibly inside an unpaired message. Parsers without one_of, one_of_c and last_of<> give the same messages, and so do the C++11 and C++14 builds.", "quantifier": "every parser expression (with arbitrary user-written parsers; error transformers must ignore messages, or for the claims about messages not tell those differences apart), input and position", "why_tests_cant": "The two implementations are selected by the preprocessor and never coexist in a test.", "anchors": ["include/boost/metaparse/v1/one_of.hpp", "include/boost/metaparse/v1/sequence.hpp", "include/boost/metaparse/v1/nth_of_c.hpp", "include/boost/metaparse/v1/cpp98/one_of.hpp", "include/boost/metaparse/v1/cpp11/one_of.hpp", "include/boost/metaparse/v1/cpp14/one_of_c.hpp"]}
{"id": "C38", "title": "Parse results do not depend on where parsing starts", "statement": "The verdict, result and remaining string of a library-built parser are the same for every start position (line, column, previous character); error positions are at the same offset. Error messages are the same, except that the positions in unpaired messages are at the same offset too, provided the error transformers of the user do not look at those positions.", "quantifier": "every parser expression, input, pair of start positions", "why_tests_cant": "The claim ranges over infinitely many inputs/parsers; requires relating two runs.", "anchors": ["include/boost/metaparse/v1/source_position.hpp", "include/boost/metaparse/v1/cpp11/impl/eval_later_result.hpp", "include/boost/metaparse/v1/foldl_reject_incomplete.hpp", "include/boost/metaparse/v1/fail_at_first_char_expected.hpp"]}
{"id": "C39", "title": "Grammar rules: every well-formed rule text is parsed into its expression", "statement": "The rule parser of grammar accepts exactly the texts name ::= expression over the documented EBNF (alternation lowest, then sequence, then postfix * and +, brackets, character literals with escapes, names, whitespace after any token but not before the first) and builds the expression tree of that text, which is unique; every other text is a compilation error; printing any expression whose names can be written and parsing it gives the expression back. The names given to grammar and import are the leading names of their strings, the rest is ignored.", "quantifier": "every expression, every name, every placement of whitespace", "why_tests_cant": "Infinite recursive syntax.", "anchors": ["include/boost/metaparse/v1/grammar.hpp:grammar_parser_impl"]}
{"id": "C40", "title": "Grammar semantics is PEG semantics", "statement": "The parser produced by grammar<start>::rule<..>... for a non-recursive grammar matches exactly according to parsing-expression semantics: | is ordered choice, juxtaposition is sequence, * and + are greedy, names stand for their definitions, actions transform the result of their rule. If no loop may match without reading, the parser terminates with a depth linear in the input, and gives a verdict if the imports do. A rule given again replaces the definition, but without an action it keeps the old action. Declarations do not change the start of a grammar, which is S by default.", "quantifier": "every non-recursive grammar, every input", "why_tests_cant": "Infinite set of grammars and inputs.", "anchors": ["include/boost/metaparse/v1/grammar.hpp:get_parser", "include/boost/metaparse/v1/grammar.hpp:build_sequence", "include/boost/metaparse/v1/grammar.hpp:build_selection", "include/boost/metaparse/v1/grammar.hpp:build_repeated"]}
{"id": "C41", "title": "Recursive and undefined rules in grammar", "statement": "A grammar in which some rule reached from the start refers to itself directly or indirectly, or some reached name is undefined, gives no verdict on any input at any depth: recursion alone never ends, an undefined name alone is ill-formed. A grammar whose reached references are all defined and acyclic can always be instantiated, at a depth of at most the number of its rules.", "quantifier": "every grammar", "why_tests_cant": "Non-termination of template instantiation is not testable.", "anchors": ["include/boost/metaparse/v1/grammar.hpp:get_parser", "include/boost/metaparse/v1/grammar.hpp:grammar_builder"]}
{"id": "C42", "title": "Generated string header limits reach the requested maximum", "statement": "The headers generated by tools/string_headers.py --max_length_limit=m --length_limit_step=s support every literal of length up to m (with the limit set to m) if and only if m - 1 is not a multiple of s; if it is, the largest supported limit is m - 1 (the unrestricted claim is refuted with a witness), and for m = 1 the script fails. The literals accepted by generated headers are never changed.", "quantifier": "every step and maximum", "why_tests_cant": "Only the default arguments are ever run.", "anchors": ["tools/string_headers.py"]}
{"id": "C43", "title": "C++98 arity limits", "statement": "In C++98 mode sequence, nth_of, first_of and last_of are ill-formed for BOOST_METAPARSE_LIMIT_SEQUENCE_SIZE or more parsers, one_of_c and one_char_except for exactly their maximum, although the reference documents these limits as the maximum that can be used; fewer arguments work (C15-C17). The documented claim 'the maximum can be used' is refuted for every configuration.", "quantifier": "every limit and arity", "why_tests_cant": "The limit itself is a macro, tests use far fewer arguments.", "anchors": ["include/boost/metaparse/v1/cpp98/sequence.hpp", "include/boost/metaparse/v1/cpp98/nth_of_c.hpp", "include/boost/metaparse/v1/cpp98/first_of.hpp", "include/boost/metaparse/v1/cpp98/last_of.hpp", "include/boost/metaparse/v1/cpp98/one_char_except_c.hpp", "doc/BOOST_METAPARSE_LIMIT_SEQUENCE_SIZE.qbk"]}
{"id": "C44", "title": "Error message texts identify the error", "statement": "The text of an error (get_value) identifies it: two library errors with the same text are the same error with the same parameters (literal_expected, unpaired, index_out_of_range, nested unpaired), numbers are shown in decimal with their exact value, and the text of unpaired determines its position and the inner text even for user-defined inner errors.", "quantifier": "every error and parameter value", "why_tests_cant": "The claim ranges over infinitely many inputs/parsers; parameters are unbounded.", "anchors": ["include/boost/metaparse/v1/error/literal_expected.hpp", "include/boost/metaparse/v1/error/unpaired.hpp", "include/boost/metaparse/v1/error/index_out_of_range.hpp"]}
{"id": "C45", "title": "debug_parsing_error reports exactly the outcome", "statement": "debug_parsing_error<p,s> produces a report iff parsing finishes; two reports for the same input are equal only if both parsers reject at the same line and column with the same error text, or both accept with the same remaining text (for remaining texts without NUL characters; with NUL the report is truncated, which is refuted with a witness). The report of the reference manual's example is reproduced.", "quantifier": "every parser, input and error text", "why_tests_cant": "The report is printed by a program that exits; it is never compared by tests.", "anchors": ["include/boost/metaparse/v1/debug_parsing_error.hpp", "doc/debug_parsing_error.qbk"]}
{"id": "C46", "title": "Well-founded parsers terminate, left-recursive ones never do", "statement": "A program of named (possibly recursive) parsers in which no named parser can start itself before a character is read and in which the bodies of all folds read something is instantiated on every input, with an instantiation depth linear in the input length. A named parser that starts itself before reading anything (also in a later alternative of one_of behind one that accepts) can not be instantiated on any input at any depth, nor can a fold whose body accepts without reading.", "quantifier": "every program of named parsers, every input, every depth", "why_tests_cant": "Non-termination is a compiler resource error; tests contain only terminating parsers.", "anchors": ["include/boost/metaparse/v1/cpp11/one_of.hpp", "include/boost/metaparse/v1/foldl.hpp", "include/boost/metaparse/v1/foldr_start_with_parser.hpp", "include/boost/metaparse/v1/sequence.hpp"]}
{"id": "C47", "title": "Well-typed parsers always give a verdict", "statement": "If the operations of the user (predicates, transformations, fold operations, error transformers) are defined on the values they can be given, expressed by a type system over parser expressions with sets of values as types, no parser expression of a (recursive) program is ill-formed on any input, and its results are in its type; together with well-foundedness (C46) every input is accepted or rejected.", "quantifier": "every typed program, every input, every depth", "why_tests_cant": "Ill-formedness is a compilation error; a test suite only contains programs that compile.", "anchors": ["include/boost/metaparse/v1/transform.hpp", "include/boost/metaparse/v1/accept_when.hpp", "include/boost/metaparse/v1/foldl.hpp", "include/boost/metaparse/v1/foldr_start_with_parser.hpp", "include/boost/metaparse/v1/cpp11/sequence.hpp"]}
{"id": "C48", "title": "The calculators evaluate arithmetic", "statement": "Each of the three example calculators (plain, with parentheses, with parentheses and unary operators) builds exactly the texts of its language (numbers, operators and brackets separated by any whitespace, multiplication and division before addition and subtraction, all grouping to the left, signs before operands) and gives exactly their integer value, with division rounded towards zero; texts whose value needs a division by zero or a number outside int are ill-formed; every other text is a compilation error; no text makes the instantiation endless. A text has at most one value, and printing any expression and calculating it gives its value.", "quantifier": "every text, every expression, every configuration with enough room", "why_tests_cant": "Infinite language; the examples only print five to twelve results.", "anchors": ["example/calculator/main.cpp:calculator_parser", "example/calculator_with_parens/main.cpp:calculator_parser", "example/calculator_with_parens_and_unary_ops/main.cpp:calculator_parser"]}
{"id": "C49", "title": "The parsers of the tutorial", "statement": "exp_parser23 accepts exactly a text that starts with an expression not followed by an operator, with the value of the expression; exp_parser16, 18 and 20 read the longest expression at the start of the text and do not fail if there is one; exp_parser22 does so too and never leaves an unfinished addition. exp_parser21 and exp_parser22 have the same outcome, messages included, wherever exp_parser20 can be instantiated, and accept the same with the same results; a sum that is too large may show in exp_parser21 only (refuted). exp_parser5 to 19 each accept, reject or are ill-formed exactly as the reading given for it says: the pair or the list of numbers (5, 7, 8), the sum of the numbers (6, 9 to 12), chains of operations from the left with or without precedence (13 to 16), products from the right (17), minus signs (18), one level of brackets (19). The tutorial's claim that exp_parser19 parses parentheses holds for one level only: it fails on every text starting with two opening parentheses (refuted). exp_parser12, 14 and 17 compute wrong values as the tutorial says (refuted), and all results and errors printed in the tutorial are reproduced for C++98; two of the error messages are others in C++11 and later (refuted).", "quantifier": "every text, every configuration with enough room", "why_tests_cant": "Infinite language; the tutorial shows single inputs.", "anchors": ["example/getting_started/5.hpp", "example/getting_started/5_2_3.hpp", "example/getting_started/5_2_4.hpp", "example/getting_started/6.hpp", "example/getting_started/6_2.hpp", "example/getting_started/7.hpp", "example/getting_started/7_2.hpp", "example/getting_started/8.hpp", "example/getting_started/9.hpp", "example/getting_started/8_1.hpp", "example/getting_started/10.hpp", "example/getting_started/11.hpp", "example/getting_started/11_3.hpp", "example/getting_started/11_3_2.hpp", "example/getting_started/12.hpp", "doc/getting_started.qbk"]}
{"id": "C50", "title": "The rational number examples", "statement": "The parser of example/rational builds exactly the texts of a number, or a numerator, a slash and a denominator (whitespace allowed after each number but not before or after the slash otherwise) with these two numbers, a missing denominator being 1; example/minimal_rational the same without the short form. Texts in which a number read is no int are ill-formed, all others are errors at the first character that does not fit, with the documented error for 7/. No text makes the instantiation endless.", "quantifier": "every text, every position, every configuration with enough room", "why_tests_cant": "Infinite language; the examples use four texts.", "anchors": ["example/rational/main.cpp:rational_parser", "example/minimal_rational/main.cpp:rational_parser"]}
{"id": "C51", "title": "The binary number example", "statement": "The parser builds exactly the non-empty texts of bits and gives their value; it is ill-formed exactly if a prefix of bits has a value that is no int; all others are errors after the leading bits. Every non-negative int has a text. The grammar in the comment has the empty text, which is not parsed (refuted).", "quantifier": "every text, every number", "why_tests_cant": "Infinite language; the example uses four texts.", "anchors": ["example/binary_number/main.cpp:binary_parser"]}
{"id": "C52", "title": "Template, constexpr and mixed parsers for a*b*a*", "statement": "The template parser of example/constexpr_parser builds exactly the texts a*b*a* with the three counts and otherwise fails after the longest such beginning; the mixed parser (one part replaced by a constexpr function) has the same outcome on every text and position; the constexpr parser counts the letters of the longest such beginning, so it agrees with the template parser wherever that succeeds, but it does not reject any text (refuted).", "quantifier": "every text shorter than 2^31", "why_tests_cant": "Infinite language; the example uses one text.", "anchors": ["example/constexpr_parser/main.cpp:parse", "example/constexpr_parser/main.cpp:parser", "example/constexpr_parser/main.cpp:parser_mixed"]}
{"id": "C53", "title": "The regular expression example", "statement": "The parser of example/regexp builds a text iff it consists of dots, other characters and non-empty, non-nested groups; the regular expression built matches exactly the texts the pattern describes (in the right order); other texts are errors at the first character that does not fit; a text has one meaning. The grammar in the comment also has empty and nested groups, which are not parsed (refuted).", "quantifier": "every pattern text, every text matched", "why_tests_cant": "Infinite language and infinitely many texts to match.", "anchors": ["example/regexp/main.cpp:regexp_parser", "example/regexp/main.cpp:r_append"]}
{"id": "C54", "title": "The parsing_error example", "statement": "For every text the report printed by example/parsing_error names the column after the leading a characters and the expected b, or the remaining text if there is one.", "quantifier": "every text", "why_tests_cant": "The example prints one report which nothing compares.", "anchors": ["example/parsing_error/main.cpp:s", "include/boost/metaparse/v1/debug_parsing_error.hpp"]}
{"id": "C55", "title": "meta_lambda builds the function of the expression", "statement": "For every text, META_LAMBDA(text) is built iff the text is an expression of numbers and the variable _ (multiplication and division before addition and subtraction, grouping to the left, any whitespace around tokens) whose literals are ints; the metafunction class built maps every int x to the value of the expression at x, and has no value exactly if that needs a division by zero or a number outside int. Texts whose literals do not fit are ill-formed. Every text has one reading, and no text makes the instantiation endless.", "quantifier": "every text, every argument, every configuration with enough room", "why_tests_cant": "Infinite language and infinitely many arguments; the example prints five results.", "anchors": ["example/meta_lambda/main.cpp:metafunction_parser", "example/meta_lambda/main.cpp:META_LAMBDA"]}
{"id": "C56", "title": "compile_to_native_code builds code that computes the expression", "statement": "For every text and every argument type, LAMBDA(text) is built iff the text is an expression whose literals are ints, and calling it evaluates the expression with the operations of the argument type, two literals being combined as ints first. For int arguments the result is the value of the expression; for exact rational numbers it is the value of the expression if no two literals are combined, but not in general: 1/2*_ is 0 (refuted).", "quantifier": "every text, every arithmetic type, every argument", "why_tests_cant": "Templates over all argument types and infinitely many values; the example calls five functions with one argument.", "anchors": ["example/compile_to_native_code/main.cpp:function_parser", "example/compile_to_native_code/main.cpp:plus"]}
{"id": "C57", "title": "meta_metaparse builds the same functions from a grammar", "statement": "The parser that example/meta_metaparse builds from a grammar given as text accepts exactly the expression texts (without whitespace in front), builds code that computes the expression, agrees with the parser of compile_to_native_code on every text that does not start with whitespace and for every argument type, and no text makes the instantiation endless. That it accepts the same texts in general is refuted: whitespace in front is rejected.", "quantifier": "every text, every arithmetic type, every argument", "why_tests_cant": "Equality of two infinite families of functions; the example calls five.", "anchors": ["example/meta_metaparse/main.cpp:function_parser", "include/boost/metaparse/v1/grammar.hpp:add_rule"]}
{"id": "C58", "title": "grammar_calculator computes a restricted calculator", "statement": "The calculator built from a grammar with semantic actions written as MPL lambda expressions gives a value iff the text is an expression and in every operation both alternatives of the action (plus and minus, or times and divides) have a value; the value is that of the expression, and calculator computes the same. Expressions without such a value are ill-formed. That it computes what calculator computes is refuted: 2*0 and 2147483647-1 are ill-formed.", "quantifier": "every text", "why_tests_cant": "Infinite language; the example prints two results.", "anchors": ["example/grammar_calculator/main.cpp:calculator_parser", "example/grammar_calculator/main.cpp:plus_action", "include/boost/metaparse/v1/grammar.hpp:add_rule"]}
{"id": "C59", "title": "meta_hs parses its language into the documented trees", "statement": "builder::define of example/meta_hs adds exactly one entry, the name and the tree of the definition, for every text of the language (definitions name parameters = expression; application binds tightest, then * and /, + and -, comparisons, all grouped to the left; if-then-else as far as possible; names are not keywords) without names starting with if and without /=; a literal outside int is ill-formed; whatever it adds is a definition if the keyword if may be run together with what follows; for texts in which words end after the letters if and without /= it accepts exactly the documented language; a text of the language without names starting with if, without /= and without literals outside int has one tree; no text makes the instantiation endless. That it accepts the documented language in general is refuted in three ways: iffy then 1 else 2 is a conditional, if iffy then 1 else 2 is rejected, and /= is never recognised because / is taken for the division.", "quantifier": "every text, every environment, every configuration with variadic templates", "why_tests_cant": "Infinite language; the example parses four texts.", "anchors": ["example/meta_hs/grammar.hpp:definition", "example/meta_hs/token.hpp:cmp", "example/meta_hs/builder.hpp:define", "example/meta_hs/semantic.hpp:if_"]}
{"id": "C60", "title": "meta_hs evaluates programs by name", "statement": "For every program (definitions, imported constants and imported templates) and every call of a name with integers, builder::get and the applications after it have a value exactly if the evaluation rules for wrapped values give it, and that value is the one the program has under call by name: arguments are evaluated when used, if-then-else evaluates one branch, definitions see each other whatever their order, imported templates are curried, results outside int and divisions by zero have no value. A call has one value, and a larger instantiation depth never changes a value or an error. Definitions given as texts add exactly the definitions they describe.", "quantifier": "every program, every call, every instantiation depth", "why_tests_cant": "Infinitely many programs and arguments, many of them recursive; the example calls four functions.", "anchors": ["example/meta_hs/bind.hpp:bind", "example/meta_hs/lazy.hpp:application", "example/meta_hs/curry.hpp:next_currying_step", "example/meta_hs/builder.hpp:get", "example/meta_hs/meta_hs.hpp:meta_hs", "example/meta_hs/semantic.hpp:if_"]}
{"id": "C61", "title": "meta_hs finds the value of every program", "statement": "If a call has a value under call by name, the library computes it. This is proved for programs whose definitions have parameters, whose names are all defined and which give functions of the program only computed arguments or names of functions. In general it is refuted: a parameter or a literal given on as it is makes the instantiation ill-formed because it is wrapped in lazy::value twice, and a definition without parameters that refers to itself is instantiated without end.", "quantifier": "every program, every call", "why_tests_cant": "Infinitely many programs; the example happens to avoid every refuted case.", "anchors": ["example/meta_hs/bind.hpp:bind", "example/meta_hs/lazy.hpp:value", "example/meta_hs/curry.hpp:next_currying_step"]}
{"id": "C62", "title": "The metafunctions of the meta_hs example", "statement": "With any configuration with variadic templates the four texts of the example define fib, fact, times4 and times11; for every int z they have a value iff the Fibonacci number, the factorial, 4z or 11z is an int, and it is that number; the handcrafted metafunctions compute the same values.", "quantifier": "every int argument, every configuration with variadic templates", "why_tests_cant": "The example prints one call of each; overflow is never reached.", "anchors": ["example/meta_hs/example_in_haskell.hpp:metafunctions", "example/meta_hs/example_handcrafted.hpp:fib", "example/meta_hs/double_number.hpp:double_number"]}
{"id": "C63", "title": "The calculators blame the first impossible character", "statement": "If one of the three example calculators fails with an error, the reported line and column are those of the first character with which the text before it can no longer be continued to an expression (the end of the text if there is none), and the message is the right one there: an operand is missing (digit expected; C++98: '(' expected, else none of the expected cases), something follows the complete expression, or a closing bracket is missing and the reported place is that of the opening bracket. At most one report fits a text and none fits an expression; a text that deserves a report gets it unless part of it is an expression without a value; instantiation fails only for such texts. The last parser of the tutorial reports in the same way.", "quantifier": "every text, every configuration with enough room", "why_tests_cant": "Infinite set of wrong texts; the examples contain no wrong input and the tutorial three.", "anchors": ["example/calculator/main.cpp:calculator_parser", "example/calculator_with_parens/main.cpp:calculator_parser", "example/calculator_with_parens_and_unary_ops/main.cpp:calculator_parser", "example/getting_started/12.hpp:exp_parser23", "include/boost/metaparse/v1/error/unpaired.hpp:unpaired", "include/boost/metaparse/v1/foldl_reject_incomplete_start_with_parser.hpp:foldl_reject_incomplete_start_with_parser"]}
{"id": "C64", "title": "Parsers do what the reference documentation says", "statement": "A set of rules, one for each sentence of the reference about the result of a parser or combinator, describes the library completely: for every program built from the parsers and combinators of the library (with recursion through named parsers and with parsers and functions of the user) within the limits of the configuration, applying a parser to a text at a position has exactly the result, remaining text, position, error and error position that can be derived from the rules; at most one result can be derived; a parser without a derivation can not be instantiated or does not terminate. build_parser has the derived result as its type or reports the derived error with its line and column.", "quantifier": "every program, every parser expression, every text and position, every configuration", "why_tests_cant": "Infinitely many compositions of combinators; tests check each combinator with a few arguments.", "anchors": ["include/boost/metaparse/v1/foldl.hpp:foldl", "include/boost/metaparse/v1/foldr_start_with_parser.hpp:foldr_start_with_parser", "include/boost/metaparse/v1/cpp11/one_of.hpp:one_of", "include/boost/metaparse/v1/cpp98/one_of.hpp:one_of", "include/boost/metaparse/v1/cpp11/sequence.hpp:sequence", "include/boost/metaparse/v1/middle_of.hpp:middle_of", "include/boost/metaparse/v1/build_parser.hpp:build_parser", "include/boost/metaparse/v1/iterate_c.hpp:iterate_c"]}
{"id": "C65", "title": "Parsing does not depend on the string type", "statement": "Only one_char, empty and keyword look at a string, with mpl::empty, mpl::front and mpl::pop_front. With these operations as implemented by the variadic string of C++11 every parser expression does exactly what it does with the list of the characters. With the padded string of C++98 it does the same (same result, position, error and error position; the rest of the text is the string of the remaining characters) for every text shorter than BOOST_METAPARSE_LIMIT_STRING_SIZE whose last character does not have the value of EOF, if its keywords are such texts too; build_parser shows the same. For texts of exactly the limit this is refuted: no parser can consume a character of such a string, entire_input never accepts it, and a keyword of that length is ill-formed.", "quantifier": "every parser expression, every text, every limit", "why_tests_cant": "Two representations of infinitely many texts under infinitely many parsers; the tests run parsers on a handful of short strings.", "anchors": ["include/boost/metaparse/v1/one_char.hpp:one_char", "include/boost/metaparse/v1/empty.hpp:empty", "include/boost/metaparse/v1/keyword.hpp:keyword", "include/boost/metaparse/v1/cpp98/string.hpp:string", "include/boost/metaparse/v1/cpp98/impl/size.hpp:size", "include/boost/metaparse/v1/cpp11/string.hpp:string"]}
{"id": "C66", "title": "Parts of a parser can be replaced by equal parts", "statement": "If in a program two parsers have the same results on every text at every position, replacing one by the other anywhere inside a parser does not change its results. If they have the same results in the program before and in the program after the change, the replacement can be done inside all definitions of the program at once, recursive ones too, and compiling any text gives the same type or the same error message with the same line and column. If they are only known to agree before the change, the changed program gets no wrong results, but it can lose results (refuted in that direction: a definition replaced by a reference to itself).", "quantifier": "every program, every parser expression, every set of replaced parts, every text and position", "why_tests_cant": "Infinitely many contexts around infinitely many parsers.", "anchors": ["include/boost/metaparse/v1/foldl.hpp:foldl", "include/boost/metaparse/v1/cpp11/one_of.hpp:one_of", "include/boost/metaparse/v1/cpp11/sequence.hpp:sequence", "include/boost/metaparse/v1/transform.hpp:transform", "include/boost/metaparse/v1/build_parser.hpp:build_parser"]}
{"id": "C67", "title": "Laws of parsers", "statement": "44 laws hold in every program: for example transforming twice is transforming once by the composition, always is transform with a constant function, a choice inside a choice can be flattened, foldl is an optional foldl1, foldl1 starts with its parser, iterate_c is a sequence, first_of and last_of can be flattened, a keyword can be cut in two, if_ is an optional look_ahead. Parsers and whole programs obtained from each other by applying laws anywhere, in both directions, any number of times, have the same results and compile every text to the same type or the same error. In C++98 flattening is refuted for inner choices without alternatives and proved for others; distributing transform over one_of is refuted for functions not defined everywhere.", "quantifier": "every parser expression, every program, every text and position, every configuration", "why_tests_cant": "Equations between infinitely many parsers on infinitely many texts.", "anchors": ["include/boost/metaparse/v1/transform.hpp:transform", "include/boost/metaparse/v1/always.hpp:always", "include/boost/metaparse/v1/cpp11/one_of.hpp:one_of", "include/boost/metaparse/v1/foldl1.hpp:foldl1", "include/boost/metaparse/v1/foldl.hpp:foldl", "include/boost/metaparse/v1/cpp11/first_of.hpp:first_of", "include/boost/metaparse/v1/cpp11/last_of.hpp:last_of", "include/boost/metaparse/v1/keyword.hpp:keyword", "include/boost/metaparse/v1/if_.hpp:if_", "include/boost/metaparse/v1/iterate_c.hpp:iterate_c", "include/boost/metaparse/v1/entire_input.hpp:entire_input"]}
{"id": "C68", "title": "Random strings of the benchmarks have the requested length", "statement": "format_character writes every byte so that it denotes that byte in a string literal and in a character literal; written next to each other two bytes can denote something else (refuted: hexadecimal escapes do not end). random_string leaves those out: for every table of counts and all random numbers in range, the result is a BOOST_METAPARSE_STRING of exactly the requested number of characters, all of them from the table. nth_char is defined for every number below the sum of the counts and selects each character as often as its count says. generate_statistics counts the occurrences of each character in all files of a directory tree.", "quantifier": "every byte, every table, all random numbers, every directory tree", "why_tests_cant": "The tools have no tests; the outcome is random.", "anchors": ["tools/benchmark/generate.py:format_character", "tools/benchmark/generate.py:random_string", "tools/benchmark/generate.py:nth_char", "tools/benchmark/char_stat.py:generate_statistics"]}
{"id": "C69", "title": "Both kinds of string benchmarks contain the same strings", "statement": "For every file made of texts and strings of the kind random_string writes, converting it to manual mode gives a file with the same texts and, in the same places, string<...> with the same characters; the conversion ends for every input and the other mode changes nothing. For strings with hexadecimal escapes or bare apostrophes this is refuted. to_upper gives the upper case letters for lower case ones and is defined for every string of signed characters; that it keeps other characters, or that it keeps different ones different, is refuted.", "quantifier": "every file, every string", "why_tests_cant": "The tools have no tests.", "anchors": ["tools/benchmark/generate.py:convert_from", "tools/benchmark/include/benchmark_util.hpp:to_upper"]}
{"id": "C70", "title": "Printed durations are right up to one second", "statement": "format_time prints a well-formed duration (larger units first, each number at least 1 and at most what the next larger unit consists of, plural exactly for numbers above 1) that is at most one second shorter than the given one and never longer; that whole seconds are printed exactly is refuted (one second is printed as nothing).", "quantifier": "every duration", "why_tests_cant": "Infinitely many durations; the tools have no tests.", "anchors": ["tools/benchmark/benchmark.py:format_time"]}
{"id": "C71", "title": "The headers of the tutorial contain what has been defined before their section", "statement": "For every guide made of text, headings of numbered sections, listings and Metashell sessions, with the numbers in increasing order, parsing it finds the sections, and there is exactly one header for each section. Including the header of a section, with or without __METASHELL defined, gives exactly the definitions and includes typed in before the heading of that section, in their order, each once, the includes of Metashell headers only in Metashell; including headers again adds nothing. Without the order this is refuted, although parsing puts the sections in order.", "quantifier": "every guide, every section, every set of macros defined before", "why_tests_cant": "The generator has no tests; the generated files are checked in.", "anchors": ["tools/generate_all.py:parse_md", "tools/generate_all.py:gen_headers", "tools/generate_all.py:is_definition", "tools/generate_all.py:protect_metashell"]}
{"id": "C72", "title": "The pages of the tutorial list the definitions before each section", "statement": "For every such guide there is a page for exactly the sections that have definitions in the numbered sections before them, pages have different names, and the page lists these definitions in their order without the protection for Metashell. After the heading of each such section there is a note linking to its page, if the components of the numbers are below ten. Refuted for larger ones (section 10 and later have pages without notes, section 5.10 has the note of section 5), and the definitions before the first numbered section are on no page.", "quantifier": "every guide, every section", "why_tests_cant": "The generator has no tests; that the last sections have no notes went unnoticed.", "anchors": ["tools/generate_all.py:what_we_have_so_far_docs", "tools/generate_all.py:remove_metashell_protection", "tools/generate_all.py:make_code_snippet"]}
{"id": "C73", "title": "Generating the documentation again changes nothing", "statement": "For every text and every set of sections with pages, generating the notes and the list of pages a second time gives the same text, and all other lines are kept. Generating the links to the snippets and the list of snippets a third time gives the same text and snippets as the second time, and all lines but these and empty ones are kept; that the second time gives the same as the first time is refuted.", "quantifier": "every text, every base name of the kind used", "why_tests_cant": "Infinitely many texts; the generator has no tests.", "anchors": ["tools/generate_all.py:what_we_have_so_far_docs", "tools/generate_all.py:extract_code_snippets"]}
{"id": "C74", "title": "Copy-paste friendly snippets contain the commands of the session", "statement": "For every guide without links there is a link after each session of more than one line to a file of its own with the commands of that session, one on a line, in their order; nothing else of the guide is changed. But for whitespace the line is what is typed in. Refuted: a listing that is not a session has a snippet if one of its lines looks like a command (so does getting_started_14.qbk); a session at the end of the guide has no snippet; two words on two lines of a command can become one word; commands ending in an empty line are joined with the next one.", "quantifier": "every guide, every session", "why_tests_cant": "The generator has no tests.", "anchors": ["tools/generate_all.py:extract_code_snippets", "tools/generate_all.py:make_copy_paste_friendly", "tools/generate_all.py:strip_not_finished_line"]}
{"id": "C75", "title": "Everything that is generated from the tutorial", "statement": "For every guide meeting the conditions of C71, C72 and C74 the whole generator does not fail; it gives the headers of C71, the pages of C72, the snippets of C74 and the guide with the notes of C72 and the links of C74.", "quantifier": "every guide", "why_tests_cant": "The steps of the generator rewrite the same text one after another; they have no tests.", "anchors": ["tools/generate_all.py:main"]}
{"id": "C76", "title": "The generated header of BOOST_METAPARSE_STRING", "statement": "For every maximum and step of tools/string_headers.py and every BOOST_METAPARSE_LIMIT_STRING_SIZE up to the highest limit of the header, the preprocessor accepts the generated text, and BOOST_METAPARSE_V1_STRING(x) expands, for every argument x, to a type that is the string of the characters of x exactly if x has at most that many characters (and fewer than 128 on Sun's compiler); above the highest limit, or without a limit, including the header is the error that says so; including it again does nothing.", "quantifier": "every maximum greater than 1, every step, every limit, every literal", "why_tests_cant": "The header is generated once for 2048; the tests set the limit to 64 and use a few short literals; no other maximum or step is ever tried.", "anchors": ["tools/string_headers.py:generate_string", "tools/string_headers.py:generate_make_string", "include/boost/metaparse/v1/cpp11/impl/string.hpp:BOOST_METAPARSE_V1_STRING"]}
{"id": "C77", "title": "The parsers of the user manual", "statement": "For every text, the parsers of doc/manual.qbk for lists of numbers (transform of repeated, foldl, foldr, foldl1, foldr1) accept exactly the numbers at the beginning with their sum, and the first three give the same outcome; sum_parser2 and sum_parser3 accept exactly the longest list of numbers with + signs; the one with foldr_start_with_parser (sum_parser4) and the one with foldl_reject_incomplete_start_with_parser accept exactly that unless a + follows, and their outcomes agree, for these and for every list with separators and every associative and commutative operation, unless the left one has an overflow where the right one finds an error. A + without a number gives 'end of input expected' before the + with entire_input of sum_parser3, 'digit expected' after it with the other two. The grammar of doc/grammar.qbk is the same parser as sum_parser3. Refuted: with an optional + only sums are accepted; sum_parser4 and the rejecting one always have the same outcome.", "quantifier": "every text, position and configuration", "why_tests_cant": "The manual is prose; its parsers are in no test.", "anchors": ["doc/manual.qbk:sum_parser", "doc/manual.qbk:sum_parser3", "doc/manual.qbk:sum_parser4", "doc/grammar.qbk:plus_grammar", "include/boost/metaparse/v1/foldr_start_with_parser.hpp:foldr_start_with_parser", "include/boost/metaparse/v1/foldl_reject_incomplete_start_with_parser.hpp:foldl_reject_incomplete_start_with_parser"]}
{"id": "C78", "title": "The number of applications of parsers is linear, that of fold steps quadratic in the text", "statement": "For every parser, program and text: the outcome depends only on the outcomes of the applications p::apply<s, pos> it makes (all alternatives of one_of, the parsers of a sequence until one fails, the runs of a fold until one fails, ...); when a parser has an outcome every application it makes has one; a parser that applies itself, directly or not, to the same text at the same place never has an outcome (left recursion); there are at most (number of parsers written in the program) * (length of the text + 1) distinct applications, and the applications waiting for each other are distinct, so the nesting is bounded by the same number; and there are programs with 2^n chains of applications for n characters, so instantiating every application only once is necessary for this. When a parser has an outcome, the repeated parser of a fold succeeds at most as often as there are characters left, so there are at most (number of parsers) * (length + 1)^2 distinct steps of folds; and there are parsers with (n + 1)(n + 2) / 2 steps for n characters.", "quantifier": "every parser, program (user parsers that consume a prefix and keep positions), text and position", "why_tests_cant": "Tests measure nothing about instantiations; the benchmarks time a few texts.", "anchors": ["include/boost/metaparse/v1/cpp11/one_of.hpp:one_of", "include/boost/metaparse/v1/sequence.hpp:sequence", "include/boost/metaparse/v1/foldl.hpp:foldl", "include/boost/metaparse/v1/foldr.hpp:foldr", "include/boost/metaparse/v1/iterate.hpp:iterate"]}
{"id": "C79", "title": "What a parser does not look at does not matter", "statement": "For every parser, program and text u t: when neither the parser nor the parsers it applies look at t (single character parsers and empty are applied with a character before t left, keywords differ or end before t, entire_input finds a character before t, user parsers do not depend on t), then for every t' the text u t' has the same outcome: the same value, the same consumed characters and the same position, or the same error message at the same position; so build_parser gives the same. This is the case when every application made has at least as many characters before t as the longest keyword.", "quantifier": "every parser, program, text, position and replacement of the end of the text", "why_tests_cant": "Tests use whole texts; no test changes the text after an error.", "anchors": ["include/boost/metaparse/v1/one_char.hpp:one_char", "include/boost/metaparse/v1/keyword.hpp:keyword", "include/boost/metaparse/v1/empty.hpp:empty", "include/boost/metaparse/v1/entire_input.hpp:entire_input", "include/boost/metaparse/v1/build_parser.hpp:build_parser"]}
{"id": "C80", "title": "The comments of a benchmark template are read as written", "statement": "A template of the benchmarks is used exactly when its comments have a line '// n in [a..b), step s' with a positive step, a line '// modes: ...' with the names of modes separated by commas, and lines '// x_axis_label: ...' and '// desc: ...', with any spaces and tabs between the parts and any line ends; the first line of each kind counts. The numbers used are those from a below b in steps of s, the modes, label and description those named. Otherwise generating raises an exception. The templates of a directory are its files ending in .cpp, each under its name without that ending.", "quantifier": "every content of a template", "why_tests_cant": "There are three templates, and the generator has no tests.", "anchors": ["tools/benchmark/generate.py:Template", "tools/benchmark/generate.py:in_comment", "tools/benchmark/generate.py:Mode"]}
{"id": "C81", "title": "Every benchmark is measured and plotted once, under the right mode", "statement": "For all templates with different names and the headings of C80: one file is generated for every number and mode, none is written twice, and its content is the template converted for the mode. Whatever the order in which the files are measured and the configurations list their entries, the diagram of a template has for every mode the curve of the measurements of its own files, ascending; when string literal templates are available and the template uses the macro, one more curve with the measurements of the files of the macro with them. The progress printed never exceeds what is to be done and ends with it. This needs string literal templates to be available for all files or for none, ranges that are not empty, and names without bmp and slt; without each of them there are counterexamples.", "quantifier": "every list of templates, measurements, order of files and order of the entries of the configurations", "why_tests_cant": "The order is random, and the tool needs a compiler for every measurement; there are no tests.", "anchors": ["tools/benchmark/generate.py:main", "tools/benchmark/generate.py:out_filename", "tools/benchmark/benchmark.py:benchmark", "tools/benchmark/benchmark.py:plot_temp_diagrams"]}
{"id": "C82", "title": "The headers can be included in any order", "statement": "For every compiler (every set of macros of Boost.Config and the compiler, and every choice of the settings of the library with texts of at most 2048 characters) and every list of headers of the library that are not for one language standard only, in any order and with repetitions: including them gives no error, no macro is defined twice with different values, every name of the library is declared before the text uses it, and nothing is defined twice. Only files for the standard in force are read, which is BOOST_METAPARSE_STD if it was defined and otherwise what the compiler supports. The macros afterwards and what is declared depend only on which headers are in the list; including headers again changes nothing. Macros the user had defined keep their values, and the only macros left behind are include guards, settings and those for the users, which mention only what exists. A public header declares the name it is called after, in boost::metaparse and in boost::metaparse::v1, and so does boost/metaparse.hpp. Exceptions: impl/assert_string_length.hpp cannot be included alone; with string literal templates the macro of v1/string.hpp mentions a name that is not declared; in C++98 BOOST_METAPARSE_STRING is defined but what it stands for is not; boost/metaparse.hpp leaves out string_value.hpp.", "quantifier": "every set of macros, every list of headers and every nesting limit from 14", "why_tests_cant": "The tests include each header in a fixed order and with one compiler at a time; a missing include shows only in some order with some standard.", "anchors": ["include/boost/metaparse.hpp", "include/boost/metaparse/config.hpp", "include/boost/metaparse/v1/string.hpp", "include/boost/metaparse/v1/one_of.hpp", "include/boost/metaparse/v1/impl/assert_string_length.hpp"]}
{"id": "C83", "title": "Arguments need not be evaluated", "statement": "is_error, get_result, get_remaining, get_position, get_message and unless_error give the same for a result, for a metafunction returning it, and for a result whose members are still to be evaluated; get_line, get_col, get_prev_char, next_char and next_line for a position and for a metafunction returning it. accept<...>::type and reject<...>::type evaluate the members, once. A parser given a position has an evaluated result. Given a metafunction returning a position it has the same outcome, in every standard, unless a fail_at_first_char_expected is applied at that very position; then it has the same outcome or cannot be instantiated, and for fail_at_first_char_expected<P> itself the latter happens exactly where P rejects (or cannot be instantiated). So not every parser is lazy in the position, and the result of one that is (optional, except, empty) may contain the metafunction instead of a position; where none of these three is applied at that position the result is evaluated.", "quantifier": "every parser, standard, text and position", "why_tests_cant": "The tests check a few of these cases, for single parsers.", "anchors": ["include/boost/metaparse/v1/accept.hpp", "include/boost/metaparse/v1/reject.hpp", "include/boost/metaparse/v1/is_error.hpp", "include/boost/metaparse/v1/unless_error.hpp", "include/boost/metaparse/v1/get_position.hpp", "include/boost/metaparse/v1/fail_at_first_char_expected.hpp:apply_err", "include/boost/metaparse/v1/optional.hpp", "include/boost/metaparse/v1/cpp98/impl/one_of_fwd_op.hpp"]}
{"id": "C84", "title": "The build environment script", "statement": "tools/build_environment.py --action checkout runs, in this order and until one of them fails: git clone, git submodule init for exactly the submodules listed (the root excepted), git submodule update, and git checkout of the listed commit in the directory of each; it changes no file. So when git does what it is told every listed submodule ends up at its listed commit, in whatever order Python goes through the dictionary. --action update, when it succeeds, leaves a file that can be read back, with the same submodules, sorted by name, each with the first word that git show-ref printed in its directory after a fetch; checking out with that file gives these commits. Whatever dictionary of ASCII strings is written can be read back. Any other action, and a file that cannot be read, is refused before anything is run. deps.json is in the format the script writes. Refuted: a failed update leaves the file as it was (it is emptied as soon as the preparation is over, and is useless afterwards); only listed submodules are initialised (if the root is the only one listed git gets no names).", "quantifier": "every file, every order of the dictionary, every behaviour of git", "why_tests_cant": "The script has no tests, and it needs a network.", "anchors": ["tools/build_environment.py:build_environment", "tools/build_environment.py:head_of_master", "tools/build_environment.py:ChildProcess", "tools/deps.json"]}
{"id": "C85", "title": "A grammar is what its declarations say", "statement": "In a grammar a name stands for what its last rule or import says and has the last action declared for it. Two grammars that start with the same name and agree on the names used are the same parser. So the spaces and superfluous brackets of the rules do not matter, nor the order of declarations of different names (a rule may use names declared later), nor declarations of names that are not used, even recursive ones, nor the names themselves as long as different ones stay different. A declaration does not matter if its name is declared again, with an action if it had one; refuted without this condition: the action of a replaced rule stays. A name without an action can be replaced by its definition at any place: whenever one of the two grammars accepts or rejects a text the other one does the same.", "quantifier": "every list of declarations, every renaming, text and depth", "why_tests_cant": "The tests declare each grammar once; these are relations between grammars.", "anchors": ["include/boost/metaparse/v1/grammar.hpp:grammar_builder", "include/boost/metaparse/v1/grammar.hpp:add_rule", "include/boost/metaparse/v1/grammar.hpp:add_import", "include/boost/metaparse/v1/grammar.hpp:get_parser"]}
{"id": "C86", "title": "Error messages do not influence parsing", "statement": "Replacing all messages of a parser (those of fail, accept_when, change_error_message, except_ and entire_input) by one message, and leaving out transform_error_message, changes nothing but the messages of the errors: verdict, result, remaining text, end position and error position stay. So two programs that differ in messages only agree on everything else. The error transformers of the user must ignore the message they get and functions on messages must be defined for all messages; without this, and for leaving out change_error_message (it moves the error to where its argument started), it is refuted.", "quantifier": "every parser expression, program, depth, text and position; arbitrary user-written parsers", "why_tests_cant": "A relation between all pairs of parsers that differ in their messages.", "anchors": ["include/boost/metaparse/v1/change_error_message.hpp", "include/boost/metaparse/v1/transform_error_message.hpp", "include/boost/metaparse/v1/accept_when.hpp", "include/boost/metaparse/v1/fail.hpp", "include/boost/metaparse/v1/except.hpp", "include/boost/metaparse/v1/entire_input.hpp", "include/boost/metaparse/v1/cpp11/one_of.hpp", "include/boost/metaparse/v1/foldl_reject_incomplete.hpp"]}
{"id": "C87", "title": "Line and column numbers do not overflow", "statement": "Wherever a parser is applied while a text is parsed, and wherever it accepts or reports an error, the line is not before the first one, the column is at least 1, and line plus column exceed those of the start by at most the length of the text. So for texts of less than 2^31 - 1 characters from the default start all counters are values of a 32 bit int. The bound is reached by both counters for every length.", "quantifier": "every parser expression, program, text, start position and every application made while parsing", "why_tests_cant": "No test parses long texts, and the positions of inner applications are not visible to tests.", "anchors": ["include/boost/metaparse/v1/source_position.hpp", "include/boost/metaparse/v1/next_line.hpp", "include/boost/metaparse/v1/next_char.hpp", "include/boost/metaparse/v1/one_char.hpp"]}
{"id": "C88", "title": "Parsers recognise the languages of parsing expression grammars", "statement": "Let a parser use no user-written parser, predicates on single characters only, no error transformer that accepts and none of fail_at_first_char_expected and the reject_incomplete variants. Read as a parsing expression grammar with predicates (one_of is ordered choice, folds are greedy repetition, look_ahead and except are the predicates, named parsers are the rules), it accepts a text only if the grammar recognises it, leaving the same rest, and rejects only if the grammar fails; parsers that always finish (C46, C47) accept and reject exactly then. Conversely every grammar without left recursion and empty loops can be written with the library. The reject_incomplete variants distinguish parsers with the same grammar (refuted), and one_of needs all its alternatives to finish although the grammar does not (refuted).", "quantifier": "every such parser expression and program, every parsing expression grammar, every text, position and sufficient depth", "why_tests_cant": "A statement about the set of all accepted texts of all parsers.", "anchors": ["include/boost/metaparse/v1/cpp11/one_of.hpp", "include/boost/metaparse/v1/foldl.hpp", "include/boost/metaparse/v1/foldr_start_with_parser.hpp", "include/boost/metaparse/v1/except.hpp", "include/boost/metaparse/v1/look_ahead.hpp", "include/boost/metaparse/v1/optional.hpp", "include/boost/metaparse/v1/cpp11/sequence.hpp", "include/boost/metaparse/v1/iterate_c.hpp", "include/boost/metaparse/v1/entire_input.hpp"]}
{"id": "C89", "title": "The names of parsers do not matter", "statement": "Parsers are named by deriving a class from them or by a typedef. The results of a parser do not depend on definitions it does not need, on the names chosen, on whether a part is written in place or given a name, or on how many names are used for the same parser. A program whose definitions do not go round in circles can be written as one parser without names. Replacing a definition by its own name can lose all results.", "quantifier": "every pair of programs (recursive ones too) that are the same up to names, every input and start position", "why_tests_cant": "The claim ranges over infinitely many inputs/parsers; requires relating runs of two programs.", "anchors": ["doc/manual.qbk", "example/calculator/main.cpp", "example/calculator_with_parens/main.cpp", "include/boost/metaparse/v1/one_of.hpp"]}
{"id": "C90", "title": "Parsers and context-free languages", "statement": "What a parser accepts is in the context-free language of its grammar (choice without order, repetition of any length, predicates left out). If one character decides between alternatives and whether to go on (LL(1), the alternative that may be empty being the last one), the parser accepts a text as a whole exactly when the text is in the language, a word and its continuation can be told apart in one way only, and the order of the other alternatives does not matter; otherwise words of the language may be rejected.", "quantifier": "every parser without user-written parsers and predicates on results, every grammar, every text", "why_tests_cant": "The claim ranges over infinitely many inputs/parsers; and over all words of a context-free language.", "anchors": ["include/boost/metaparse/v1/one_of.hpp", "include/boost/metaparse/v1/cpp11/one_of.hpp", "include/boost/metaparse/v1/sequence.hpp", "include/boost/metaparse/v1/repeated.hpp", "include/boost/metaparse/v1/foldl.hpp"]}
{"id": "C91", "title": "LL(1) parsers blame the first impossible character", "statement": "If one character decides (C90), all repetitions of more than one character reject incomplete elements, nothing of more than one character is optional or gets a new error message, and every part of the grammar has a word, then the error of a parser is where the longest beginning of the text ends that some word of the language begins with; what is accepted is that longest beginning. With entire_input the text is accepted exactly when it is a word, the error is at the end of the text exactly when the text only needs to go on, and where it is depends on the language only: not on the grammar, on the way the parser is written or on the implementation. Without the conditions on repetitions, optional parts and error messages this is wrong.", "quantifier": "every parser without user-written parsers and predicates, every LL(1) grammar, every text", "why_tests_cant": "The claim ranges over infinitely many inputs/parsers; and over all words of a context-free language.", "anchors": ["include/boost/metaparse/v1/one_of.hpp", "include/boost/metaparse/v1/cpp11/one_of.hpp", "include/boost/metaparse/v1/foldl_reject_incomplete.hpp", "include/boost/metaparse/v1/foldr_reject_incomplete.hpp", "include/boost/metaparse/v1/change_error_message.hpp", "include/boost/metaparse/v1/entire_input.hpp"]}
{"id": "C92", "title": "LL(1) parsers compute the value of the only derivation", "statement": "The result of a parser is the value of a derivation of what it has read, where alternatives have no order and repetitions may stop anywhere: for sequences the results of the elements, for folds the function applied to the results of all elements in the documented direction, and so on. If one character decides (C90), a word has only one value; the parser accepts a text with a result exactly when the text has that value, whatever comes after it, also where repetitions reject incomplete elements (C91). So the result depends neither on the order of the alternatives nor on the implementation. Where one character does not decide, a word may have two values, of which the order of the alternatives selects one, and a repetition may take what was meant for the rest.", "quantifier": "every parser without user-written parsers and predicates, every LL(1) grammar, every text", "why_tests_cant": "The claim ranges over infinitely many inputs/parsers; and over all derivations of a context-free grammar.", "anchors": ["include/boost/metaparse/v1/one_of.hpp", "include/boost/metaparse/v1/sequence.hpp", "include/boost/metaparse/v1/foldl.hpp", "include/boost/metaparse/v1/foldr.hpp", "include/boost/metaparse/v1/foldl_reject_incomplete.hpp", "include/boost/metaparse/v1/foldr_reject_incomplete.hpp", "include/boost/metaparse/v1/transform.hpp", "include/boost/metaparse/v1/optional.hpp", "include/boost/metaparse/v1/entire_input.hpp"]}
{"id": "C93", "title": "White space between tokens does not matter", "statement": "Split texts into tokens: single marks and words of several kinds (numbers, names ...), each word as long as possible, white space (space, tab, carriage return, line feed) in between. Every text has exactly one list of tokens, and it stays the same when white space is put anywhere but inside a word. A parser that reads by means of token only (of a mark, or of characters of one kind of word), skips white space with repeated<space> and combines such parsers accepts two texts with the same tokens with the same result and the same tokens remaining, rejects them before the same tokens, or gives no result for either. With white space skipped first and entire_input, both compile to the same or fail at corresponding places. This covers the three calculators, meta_lambda and compile_to_native_code, the last parsers of the tutorial and definitions of meta_hs. The message of an error may differ; white space inside words, after the '/' of example/rational and in quoted characters of grammar rules matters.", "quantifier": "every such parser and recursive program, every classification of characters, every pair of texts with the same tokens, every start position", "why_tests_cant": "The claim ranges over infinitely many inputs/parsers; requires relating runs on pairs of texts of unbounded length.", "anchors": ["include/boost/metaparse/v1/token.hpp", "include/boost/metaparse/v1/space.hpp", "include/boost/metaparse/v1/spaces.hpp", "include/boost/metaparse/v1/repeated.hpp", "include/boost/metaparse/v1/first_of.hpp", "include/boost/metaparse/v1/entire_input.hpp", "example/calculator/main.cpp", "example/meta_hs/token.hpp", "example/rational/main.cpp"]}
{"id": "C94", "title": "Choices can be reordered, cleaned up and factored", "statement": "Neighbouring alternatives of one_of that never accept the same text can change places; an alternative written twice and fail can be left out; a choice in a choice can be flattened; a choice of one parser is that parser; a common beginning of all alternatives (with sequence, first_of or last_of) can be moved out of the choice. The results are the same up to the messages of errors: same values, same remaining texts, same positions also of errors. This holds anywhere in recursive programs as long as nothing looks at error messages, so that the same types are built and the errors are at the same line and column. An alternative that accepts only where an earlier one accepts can be left out as long as it has an outcome, though errors may be reported further back. When no keyword is the beginning of a later one, a choice of keywords takes the longest that fits. Alternatives that are not exclusive can not change places and a common ending can not be moved out.", "quantifier": "every configuration (both implementations of one_of), every program, every list of alternatives, every input and start position", "why_tests_cant": "The claim ranges over infinitely many inputs/parsers; requires relating runs of two programs.", "anchors": ["include/boost/metaparse/v1/one_of.hpp", "include/boost/metaparse/v1/cpp11/one_of.hpp", "include/boost/metaparse/v1/cpp98/impl/one_of.hpp", "include/boost/metaparse/v1/keyword.hpp", "include/boost/metaparse/v1/sequence.hpp", "include/boost/metaparse/v1/first_of.hpp", "include/boost/metaparse/v1/last_of.hpp", "include/boost/metaparse/v1/fail.hpp"]}
{"id": "C95", "title": "Nested folds apply operators by precedence", "statement": "Parsers of expressions are written in the tutorial and the examples as one foldl_start_with_parser per level of operators, each having the next one as its operand. For any number of levels, operators and functions: if operators of different levels never accept the same text and no value is void, such a parser accepts exactly the operands and operators that come in turn up to where no operator with an operand follows, and its result is the value by precedence: the last operator of those that bind least is applied last, to the values of what is on its left and on its right. There is exactly one such value (at most one if a function is not defined everywhere). It rejects only what its operand rejects. With foldl_reject_incomplete_start_with_parser it accepts the same up to where no operator follows, so that an operator without an operand is an error. The three calculators and the parsers of sections 8.1, 10, 11.3 and 12 of the tutorial are of this form; for the calculators the value of whole texts is characterised. An operator that two levels have in common is only applied by the level that binds more.", "quantifier": "every number of levels, every parser of operands and operators (recursive ones too), all functions, every input and start position", "why_tests_cant": "The claim ranges over infinitely many inputs/parsers; and over all numbers of levels.", "anchors": ["include/boost/metaparse/v1/foldl_start_with_parser.hpp", "include/boost/metaparse/v1/foldl_reject_incomplete_start_with_parser.hpp", "include/boost/metaparse/v1/sequence.hpp", "include/boost/metaparse/v1/one_of.hpp", "example/calculator/main.cpp", "example/calculator_with_parens/main.cpp", "example/calculator_with_parens_and_unary_ops/main.cpp", "doc/getting_started.qbk"]}
{"id": "C96", "title": "Repetitions can be unrolled, fused and regrouped", "statement": "Every fold is repeated (or repeated1) with the results folded afterwards. Transforming the elements of a fold, or the result of foldl or foldr by a function that commutes with the steps, can be done by the function of the fold. foldl can be replaced by foldr if the order of elements does not matter or the operation is associative. A right fold is nothing or an element followed by a right fold, and a named parser defined in this recursive way has exactly the results of foldr. These rewritings can be made anywhere in a program without changing what is built or which error is reported where. repeated leaves nothing for a second repeated of the same parser, and repeated<repeated1<p>> has at most one group. A list with separators, written with last_of<sep, p> after the first element or with first_of<p, sep> before the last one, accepts exactly alternating elements and separators; the second way rejects texts with a separator at the end, the first one leaves the separator. Refuted: foldl is foldr in general; addition of ints is associative (overflow); transforming elements by a function not defined everywhere under foldl_reject_incomplete; recursion ending with another parser is foldr_start_with_parser; both ways of writing lists are equal.", "quantifier": "every parser, function, program, input and start position", "why_tests_cant": "The claim ranges over infinitely many inputs/parsers; requires relating runs of two programs.", "anchors": ["include/boost/metaparse/v1/foldl.hpp", "include/boost/metaparse/v1/foldl1.hpp", "include/boost/metaparse/v1/foldr.hpp", "include/boost/metaparse/v1/foldr1.hpp", "include/boost/metaparse/v1/foldl_start_with_parser.hpp", "include/boost/metaparse/v1/foldr_start_with_parser.hpp", "include/boost/metaparse/v1/foldl_reject_incomplete.hpp", "include/boost/metaparse/v1/foldr_reject_incomplete.hpp", "include/boost/metaparse/v1/repeated.hpp", "include/boost/metaparse/v1/repeated1.hpp", "include/boost/metaparse/v1/transform.hpp", "include/boost/metaparse/v1/optional.hpp"]}
{"id": "C97", "title": "Formulas written with the necessary brackets are read back", "statement": "For any table of levels of one-character operators, any signs and any kind of words: a formula written with at least the necessary brackets (around an operator that binds less, and around an operand on the right with an operator of the same level), with any further brackets and any white space after tokens, is accepted by the nest of folds over words, brackets and signs where the text or a bracket ends after it, and the result is the value of the formula; whatever is accepted is a text of a formula with the result as its value. The calculators with brackets compile exactly the texts of formulas with a number in the range of int, to this number; the tutorial's parsers with brackets (11_3.hpp, 12.hpp) compile them as well. Every formula has a text with the necessary brackets only, which no other text of the formula is shorter than, and a text is a text of one formula only. Refuted: that an operand on the right needs no brackets for an operator of the same level.", "quantifier": "every table, formula, text, program and start position", "why_tests_cant": "The claim ranges over infinitely many inputs/parsers; formulas and tables are unbounded, and the value of a text depends on all of it.", "anchors": ["include/boost/metaparse/v1/foldl_start_with_parser.hpp", "include/boost/metaparse/v1/foldl_reject_incomplete_start_with_parser.hpp", "include/boost/metaparse/v1/foldr_start_with_parser.hpp", "include/boost/metaparse/v1/middle_of.hpp", "include/boost/metaparse/v1/one_of.hpp", "include/boost/metaparse/v1/token.hpp", "example/calculator_with_parens/main.cpp", "example/calculator_with_parens_and_unary_ops/main.cpp", "example/getting_started/11_3.hpp", "example/getting_started/12.hpp"]}
{"id": "C98", "title": "Operators can group to the left and to the right", "statement": "Section 9 of the tutorial writes a level of operators that group to the right as foldr_start_with_parser<sequence<operand, operator>, operand, f>. For any number of levels, each written as this, as foldl_start_with_parser or as foldl_reject_incomplete_start_with_parser, in any order: what is accepted are operands and operators in turn, and the result is their value by precedence and grouping: of the operators that bind least the last one is applied last if they group to the left, the first one if they group to the right. If operators of different levels never accept the same text, no operator is empty or rejected after where it would begin and no value is void, all operands and operators up to where no operator follows are accepted if they have a value; nothing else is accepted if no level is written as foldl_start_with_parser. With entire_input and operators of one character a text compiles exactly to its value, whatever folds are used. There is exactly one value (at most one if a function is not defined everywhere), and it is that of C95 if all levels group to the left. The parser of section 9 of the tutorial is of this form, and its values are those of calculating with the numbers (overflow and division by zero have no value). Refuted: that foldl_start_with_parser around a fold to the right leaves only an operator without an operand (1+2* is read up to 1).", "quantifier": "every number of levels, every way to group them, every parser of operands and operators (recursive ones too), all functions, every input and start position", "why_tests_cant": "The claim ranges over infinitely many inputs/parsers; and over all numbers and kinds of levels.", "anchors": ["include/boost/metaparse/v1/foldr_start_with_parser.hpp", "include/boost/metaparse/v1/foldl_start_with_parser.hpp", "include/boost/metaparse/v1/foldl_reject_incomplete_start_with_parser.hpp", "include/boost/metaparse/v1/sequence.hpp", "include/boost/metaparse/v1/one_of.hpp", "example/getting_started/9.hpp", "doc/getting_started.qbk"]}
{"id": "C99", "title": "Errors in expressions are missing operands", "statement": "For expressions of any number of levels, each written as foldl_start_with_parser, foldl_reject_incomplete_start_with_parser or foldr_start_with_parser (C98), whose operators are not empty and rejected where they would begin: every error is the error of an operand, at the beginning or after an operator that follows operands and operators in turn, with the message and the position of that operand. If no level is written as foldl_start_with_parser, operators of different levels never accept the same text, no value is void and the functions are defined everywhere, every such missing operand is reported. With entire_input the error of a text is a missing operand or comes from something that is not an operator after an operand, reported at that place with the message of entire_input; this is so for the three calculators. With operators of one character, no foldl_start_with_parser and functions that are defined everywhere these are exactly the reported errors, and every text has a value or an error if the parser of operands always has a result. Refuted: that a missing operand is always reported (1/0/1* does not compile at all since 1/0 has no value).", "quantifier": "every number of levels, every way to group them, every parser of operands and operators (recursive ones too), all functions, every input and start position", "why_tests_cant": "The claim ranges over infinitely many inputs/parsers; and over all numbers and kinds of levels.", "anchors": ["include/boost/metaparse/v1/foldr_start_with_parser.hpp", "include/boost/metaparse/v1/foldl_start_with_parser.hpp", "include/boost/metaparse/v1/foldl_reject_incomplete_start_with_parser.hpp", "include/boost/metaparse/v1/entire_input.hpp", "include/boost/metaparse/v1/sequence.hpp", "include/boost/metaparse/v1/one_of.hpp", "example/calculator/main.cpp", "example/calculator_with_parens/main.cpp", "example/calculator_with_parens_and_unary_ops/main.cpp"]}
{"id": "C100", "title": "Formulas with operators that group to the left and to the right are read back", "statement": "Take a table of operators of one character in levels, each level grouping to the left (foldl_start_with_parser or foldl_reject_incomplete_start_with_parser) or to the right (foldr_start_with_parser), signs in front of operands, words, and brackets around the named parser. Every text of a formula that has brackets where the table needs them (next to an operator, on the one side where its level does not continue, around operators of the same level, and on both sides around weaker ones), with more brackets and white space at will, is accepted with the value of the formula, and nothing else is accepted. The text with only the necessary brackets is a text of the formula, and no text of it is shorter. A text of digits and such operators is a text of one formula only. With all levels grouping to the left this is C97. With the metafunctions of the tutorial for additions and multiplications, whichever way each of the two levels groups, exactly the texts of formulas that have a number compile, to that number.", "quantifier": "all tables of levels and groupings, all formulas, all texts, every parser of words that satisfies the stated conditions, all functions, every start position", "why_tests_cant": "The claim ranges over infinitely many inputs/parsers; and over all formulas and tables of operators.", "anchors": ["include/boost/metaparse/v1/foldr_start_with_parser.hpp", "include/boost/metaparse/v1/foldl_start_with_parser.hpp", "include/boost/metaparse/v1/foldl_reject_incomplete_start_with_parser.hpp", "include/boost/metaparse/v1/middle_of.hpp", "include/boost/metaparse/v1/one_of.hpp", "include/boost/metaparse/v1/token.hpp", "example/getting_started/8_1.hpp", "example/getting_started/9.hpp", "example/getting_started/11.hpp"]}
{"id": "C101", "title": "Errors in formulas are where the beginning of a formula ends", "statement": "Take a table of operators of one character, signs, words and brackets as in C100, whose parser of words rejects where the text begins. Wherever such a parser reports an error, the text before the position of the error is the beginning of a text of a formula, so that it can be continued to one. At the position an operand is wanted (nothing, an operator, a sign or an opening bracket is before it, with white space) and no word, sign or opening bracket begins, or the text before ends with an opening bracket and a formula and no closing bracket follows. With entire_input the reported line and column are those of such a place, or a formula ends there, something else follows and the message is that of entire_input. Folds that are not lenient leave no operator, so that no operator follows an unclosed or a whole formula at such a place either. This is so for the calculators with brackets and with signs, the parsers of sections 11.3 and 12 of the tutorial and the parsers of C100 with numbers, for which the places are described by the characters of the text only. For the calculators the beginning is also the longest one: no text of a formula begins with the text before the error and the next character, unless this is white space or a digit after a digit.", "quantifier": "all tables of levels and groupings, all texts, every parser of words that satisfies the stated conditions, all functions, every start position", "why_tests_cant": "The claim ranges over infinitely many inputs/parsers; and over all tables of operators.", "anchors": ["include/boost/metaparse/v1/foldr_start_with_parser.hpp", "include/boost/metaparse/v1/foldl_start_with_parser.hpp", "include/boost/metaparse/v1/foldl_reject_incomplete_start_with_parser.hpp", "include/boost/metaparse/v1/middle_of.hpp", "include/boost/metaparse/v1/one_of.hpp", "include/boost/metaparse/v1/token.hpp", "include/boost/metaparse/v1/entire_input.hpp", "example/calculator_with_parens/main.cpp", "example/calculator_with_parens_and_unary_ops/main.cpp", "example/getting_started/11_3.hpp", "example/getting_started/12.hpp"]}
