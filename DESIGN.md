# Formal model of boostorg/metaparse (v1) in Rocq/Coq 8.16.1

The subject is the C++ template metaprogramming library in /repo: parsers are
class templates that are evaluated by the compiler.  This document says what is
modelled, how, what is trusted and, property by property, how the proof goes.
The properties themselves are in `properties.jsonl`; the status of each one is
in `MANIFEST.json`.

## 1. What an evaluation is in the model

* A character is an integer (`char := Z`), the value of the C++ `char`; a parsed
  string is a list of characters (the library only uses `mpl::empty`, `front`,
  `pop_front` on it; C65 proves that the string types behave like it).
* A source position is a record line/col/prev_char (`source_position.hpp`).
* A metaprogramming value is an element of the inductive type `value` (boxed
  characters, integers, booleans, strings, sequences, arbitrary user templates).
* A metafunction class used as argument (semantic action, predicate, fold
  operation) is a Gallina function returning `option`: `None` is "has no `type`,
  the program is ill-formed".
* Applying a parser to (string, position) gives an `outcome`:
  `Accept result remaining pos`, `Reject message pos`, `Illformed` (hard
  compilation error) or `OutOfFuel` (recursion deeper than the given bound; the
  template instantiation has not finished).
* A parser is a function `str -> pos -> outcome` (`pfun`).  Each combinator header
  is one Gallina function over `pfun`s; combinators which recurse without
  structural bound (folds, iterate) take an explicit depth bound and return
  `OutOfFuel` when it is exceeded.  Theorems about combinators are for *every*
  `pfun`.
* On top of this shallow layer there is a syntax of parser expressions (`pexpr`)
  with recursion through named parsers, with an evaluator `eval std env depth`
  that only calls the shallow functions.  Theorems about "every parser built from
  the library" are inductions over this syntax.
* The preprocessor-selected implementations (C++98, C++11, C++14 directories) are
  separate functions; library parsers defined through them are parameterised by
  `std`.

## 2. What is modelled, and what is not (trusted or out of scope)

Modelled function by function (all of include/boost/metaparse/v1 except what is
listed below): source positions, all parsers and combinators, util/, the
variadic implementations of cpp98/, cpp11/ and cpp14/, the string classes, their
iterators and BOOST_METAPARSE_STRING, build_parser, debug_parsing_error and the
texts of the errors, grammar.hpp, tools/string_headers.py except for its command
line and the writing of files; from tools/benchmark the
statistics of characters, the random strings, the conversion between the two
kinds of benchmarks, to_upper, the printing of durations, the reading of the
templates, the files generated, their measuring and what is plotted;
tools/generate_all.py except for its reading and writing of files.
The directives of all 317 headers (includes, guards, macros, conditions), and which
names the text between them declares, defines and uses, are in `HeaderFiles.v` (C82).

Not modelled:

* Boost.MPL (`eval_if`, `if_`, `fold`, `push_back`, `at_c`, `map`, ...) and the
  C++ compiler: the model assumes their documented semantics.  For `mpl::map`
  (grammar.hpp) this means that the newest entry of a key wins.  For the lambda
  expressions of example/grammar_calculator it means that `mpl::bind` evaluates
  its nested bind arguments before the outer metafunction, and that the result
  of `lambda<>::type` nested in another one is protected.
* In example/meta_hs arithmetic with `bool_` constants is ill-formed, and imported
  templates only use `A::type::value` of their arguments.  It is modelled for the
  standards with variadic templates (the example falls back on handwritten
  metafunctions otherwise).
* In example/compile_to_native_code the argument type `T` is any type with the
  four operations and a conversion from `int`; `int op T` is taken as `T op T`
  after that conversion (true for the arithmetic types at least as wide as int).
* C78 counts applications `p::apply<s, pos>` of the parsers written in a program,
  each once, as C++ instantiates a specialisation once, and the steps of folds
  (they differ in their state, so they are counted for every place where the fold
  is applied).  Other helper templates of the library and the instantiations made
  by Boost.MPL are not counted.
* Values are assumed to satisfy `v::type == v` (the library's documented
  "metaprogramming value" requirement), except `void`, the default result of
  `optional` and `empty`: `type_of` in `Base.v` is `None` for it.  The initial state
  of `foldl` and its variants is an `option`: what `State::type` is, so
  `foldl<P, void, F>` is `foldl p None f`.
* `int` overflow is modelled where values are computed from the input (`int_`),
  not for line/column counters: C87 proves that they stay in range for all texts of
  less than 2^31 - 1 characters.
* The `__SUNPRO_CC` branch of cpp11/impl/string.hpp in `Strings.v` (it is in
  `Headers.v`, C76), the `cxx_string_literal_templates` branch (cpp14/, clang), the C++98 string with
  LIMIT_STRING_SIZE = 1.
* For C82 the headers were reduced to directives and names by a script that reads
  their text; this reduction is trusted.  A use of a name inside a template counts
  like any other use.  Headers of Boost and of the standard library are not followed:
  the macros of Boost.Config are arguments.  The 2065 character macros of
  cpp11/impl/string.hpp are left out there (they are in `Headers.v`).  A macro whose
  replacement is not a number has the value 0.
* Formatting of `int` by iostreams is Coq's own decimal conversion.
* `BOOST_METAPARSE_DEFINE_ERROR` beyond "an error class with a text", version
  macros, string_value.hpp.
* Positions and texts are values, and the accessors get_line, get_col, get_position, ...
  are record fields, except in `Lazy.v` (C83), where positions may be unevaluated
  metafunctions.  There the text given to a parser is a value (what `mpl::empty` and
  `mpl::front` do with other classes is not specified), the parsers written by the user
  evaluate the position, and `mpl::equal_to` of a class without `tag` is ill-formed.
* tools/build_environment.py (C84): running a program is an arbitrary function; the
  programs leave the file of the dependencies alone, which can always be written.
  json documents are objects of strings with characters below 128; any other
  document counts as unreadable.  argparse is reduced to the actions it lets through
  and the defaults; what is printed is left out.
* The parts of tools/ that are not named in section 4 (in tools/benchmark: the
  templating engine, running compilers, drawing; json is assumed to keep the
  contents of dictionaries but not their order).
  Python 2 is assumed; durations are exact numbers instead of floating point ones,
  and the numbers drawn by `random.randint` are arguments.
* The correspondence between the Gallina text and the C++ text is by reading;
  every definition cites the file and lines it models.  Three things check it:
  `Tests.v` runs the model on the assertions of the library's own tests (498 of
  the 524 assertions of test/*.cpp, translated mechanically, for all three
  language standards; the rest are about laziness, tags and macros the model
  does not have), and each theorem is run against deliberately wrong models
  (seeded/LOG.jsonl; there a failing proof is replaced by an axiom and the theorems
  that then depend on the axiom are listed as failed, so one change shows its
  effect on all properties).  One of the 498 does not hold in C++98: test/sequence.cpp
  uses `sequence<>`, which cpp98/sequence.hpp only declares (C43).
  `Tests_Reference.v` does the same with the examples of the reference documentation
  (226 of the 234 assertions in doc/*.qbk).  `Tests_Guide.v` compares what the model of tools/generate_all.py makes of
  doc/getting_started.qbk with the generated files in /repo, all of them.
* While that model was written, a copy of some functions of generate_all.py was
  run once outside /verif and /repo.  This was a mistake (the code was to be read
  only); the copy and its output were deleted, and nothing here relies on it.

## 3. Trusted base

* Coq 8.16.1 kernel (with its `vm_compute` reduction machine, used in examples).
* `Print Assumptions` is run for every theorem in the `Properties_*.v` files and
  prints "Closed under the global context" for each of them: no axiom is used
  by any theorem.  The modules loaded from Coq's standard library contain seven
  axioms of `Coq.ssr.ssrunder.Under_rel` (loaded with the arithmetic tactics); no
  theorem depends on them.
* The Gallina model (section 1) as a description of the code.

## 4. Files (rocq/theories)

| file | contents |
|------|----------|
| `Base.v` | characters, positions, messages, values, outcomes |
| `Util.v` | `util/*.hpp`, character classes, digits |
| `Combinators.v` | parsers and combinators shared by all standards |
| `Variadic.v` | one_of, sequence, nth_of, first_of, last_of, one_of_c, one_char_except: C++98, C++11, C++14 versions |
| `Parsers.v` | parsers defined from the above (digit, int_, token, middle_of, ...) |
| `Deep.v` | syntax of parser expressions with named parsers, and evaluator |
| `Strings.v` | variadic string, C++98 string, iterators, `BOOST_METAPARSE_STRING`, tools/string_headers.py |
| `StringParse.v` | one_char, empty, keyword and the parsers built from them on the string types |
| `Messages.v` | texts of the errors, debug_parsing_error |
| `Benchmark.v` | tools/benchmark: char_stat.py, parts of generate.py, `format_time` of benchmark.py, include/benchmark_util.hpp |
| `BenchmarkRun.v` | tools/benchmark: templates and main function of generate.py, `benchmark` and what `plot_temp_diagrams` plots of benchmark.py |
| `Generate.v` | tools/generate_all.py |
| `Grammar.v` | `grammar.hpp` |
| `Calculator.v` | example/calculator, example/calculator_with_parens, example/calculator_with_parens_and_unary_ops, example/getting_started (exp_parser1-23) |
| `Examples.v` | example/rational, example/minimal_rational, example/binary_number, example/constexpr_parser, example/regexp, example/parsing_error |
| `Functions.v` | example/meta_lambda, example/compile_to_native_code, example/meta_metaparse, example/grammar_calculator |
| `Manual.v` | the parsers of doc/manual.qbk and the grammar of doc/grammar.qbk |
| `MetaHs.v` | example/meta_hs: its parser, its classes and their evaluation |
| `Spec.v` | independent specification vocabulary (no reference to the model's combinators) |
| `SpecDeep.v`, `SpecTerm.v`, `SpecType.v` | vocabulary for parser expressions: user code assumptions, well-foundedness, types |
| `SpecRules.v` | what every parser and combinator does, as inference rules without evaluation order or depth |
| `SpecCost.v` | which applications of parsers a parser makes, directly or not; the parsers written in a program |
| `SpecLocal.v` | the end of a text a parser does not look at |
| `SpecReplace.v` | replacing parts of a parser, having the same results |
| `SpecLaws.v` | the laws and rewriting with them |
| `SpecStringParse.v` | which texts can be strings, what user code may do with strings |
| `SpecGrammar.v` | the language of grammar rules and parsing expressions |
| `SpecCalc.v` | tokens, grammar and value of arithmetic expressions |
| `SpecCalcErr.v` | which character of a text is to blame and why |
| `SpecTutorial.v` | what the early parsers of the tutorial read |
| `SpecManual.v` | lists of numbers, with and without signs between them; operations that are associative and commutative |
| `SpecExamples.v` | the languages of the smaller examples |
| `SpecFun.v` | expressions with a variable, their texts and values |
| `SpecHs.v` | the language of example/meta_hs: texts, trees |
| `SpecHsEval.v` | the language of example/meta_hs: call-by-name meaning, layers of wrapping, the example program |
| `SpecBenchmark.v` | C++ string and character literals, files with strings in them, counts of characters, durations |
| `SpecBenchRun.v` | lines of comments of templates, headings, names of files, curves, progress |
| `SpecGenerate.v` | lines, a preprocessor, the parts of a guide and what they define |
| `Proofs_*.v` | lemmas |
| `Properties_Positions.v` | C01-C07 |
| `Properties_Folds.v` | C08-C14 |
| `Properties_Variadic.v` | C15-C19, C31, C43 |
| `Properties_Equivalences.v` | C20, C21 |
| `Properties_Basic.v` | C22-C30, C32 |
| `Properties_Deep.v` | C36-C38 |
| `Properties_Rules.v` | C64 |
| `Properties_Replace.v`, `Properties_Laws.v` | C66, C67 |
| `Properties_Term.v`, `Properties_Type.v` | C46, C47 |
| `Properties_Strings.v` | C33-C35, C42 |
| `Properties_StringParse.v` | C65 |
| `Properties_Messages.v` | C44, C45 |
| `Properties_Grammar.v` | C39-C41 |
| `Properties_Calc.v`, `Properties_Tutorial.v` | C48, C49 |
| `Properties_CalcErr.v` | C63 |
| `Properties_Examples.v` | C50-C54 |
| `Properties_Functions.v` | C55-C58 |
| `Properties_Hs.v` | C59 |
| `Properties_HsEval.v` | C60 to C62 |
| `Properties_Benchmark.v` | C68-C70 |
| `Properties_Generate.v` | C71-C75 |
| `Headers.v` | the text tools/string_headers.py writes |
| `SpecHeaders.v` | tokens, macros, a preprocessor with expansion, what the templates of the header say |
| `Proofs_Headers.v`, `Proofs_Expansion*.v` | the lines of the header; what including it and using its macro gives; that the preprocessor of the specification has one outcome only |
| `Properties_Headers.v` | C76 |
| `Properties_Manual.v` | C77 |
| `Properties_Cost.v`, `Properties_Local.v` | C78, C79 |
| `Properties_BenchRun.v` | C80, C81 |
| `Include.v` | the preprocessor: including, macros, conditions |
| `HeaderFiles.v` | the headers of the library for it |
| `SpecInclude.v` | declared before used, the standard chosen, the public headers and their names |
| `Proofs_Include*.v` | an abstract run of every header, checked by computation, and its soundness |
| `Properties_Include.v` | C82 |
| `Lazy.v` | the parsers with positions that are not evaluated yet, results as classes, the accessors |
| `SpecLazy.v`, `Proofs_Lazy.v` | what a class means, the parsers applied at the given position; a simulation for every combinator |
| `Properties_Lazy.v` | C83 |
| `Environment.v` | tools/build_environment.py, with json for objects of strings; tools/deps.json |
| `SpecEnvironment.v`, `Proofs_Environment.v` | the programs to be run, the first word of a text; the script follows the plan, written dictionaries are read back |
| `Properties_Environment.v` | C84 |
| `SpecDeclarations.v`, `Proofs_Declarations.v` | what declarations say, names in use, renaming, definitions put in place of names; instantiation depends on the lookups of the names used |
| `SpecErase.v`, `Proofs_Erase.v` | parser expressions without messages; a relation between outcomes that ignores messages |
| `SpecCounters.v` | bounds of line and column numbers |
| `Properties_Declarations.v` | C85 |
| `Properties_Erase.v` | C86 |
| `Properties_Counters.v` | C87 |
| `SpecPeg.v` | parsing expression grammars with predicates; which one a parser stands for |
| `Proofs_PegAll.v`, `Properties_Peg.v` | C88 |
| `SpecCfg.v`, `Proofs_Cfg.v`, `Properties_Cfg.v` | C90: parsers and context-free languages, LL(1) |
| `SpecBlame.v`, `Proofs_Blame.v`, `Proofs_BlameParsers.v`, `Properties_Blame.v` | C91: LL(1) parsers blame the first impossible character |
| `SpecMeans.v`, `Proofs_Means.v`, `Properties_Means.v` | C92: LL(1) parsers compute the value of the only derivation |
| `SpecLayout.v`, `Proofs_Layout.v`, `Properties_Layout.v` | C93: white space between tokens does not matter |
| `SpecChoice.v`, `Proofs_Choice.v`, `Properties_Choice.v` | C94: choices can be reordered, cleaned up and factored |
| `SpecPrecedence.v`, `Proofs_Precedence.v`, `Properties_Precedence.v` | C95: nested folds apply operators by precedence |
| `SpecRepeat.v`, `Proofs_Repeat.v`, `Properties_Repeat.v` | C96: repetitions can be unrolled, fused and regrouped |
| `SpecFormula.v`, `Proofs_Formula.v`, `Proofs_Formula2.v`, `Proofs_Formula3.v`, `Properties_Formula.v` | C97: formulas written with the necessary brackets are read back |
| `SpecGrouping.v`, `Proofs_Grouping.v`, `Properties_Grouping.v` | C98: operators can group to the left and to the right |
| `Proofs_Grouping2.v`, `Properties_Missing.v` | C99: errors in expressions are missing operands |
| `SpecGroupedFormula.v`, `Proofs_GroupedFormula.v`, `Proofs_GroupedFormula2.v`, `Properties_GroupedFormula.v` | C100: formulas with operators that group to the left and to the right are read back |
| `SpecFault.v`, `Proofs_Fault.v`, `Proofs_Fault2.v`, `Properties_Fault.v` | C101: errors in formulas are where the beginning of a formula ends |
| `Properties_Details.v` | C14 for the remaining folds, `return_`, `fail` (C22), error transformers (C30) |
| `SpecNames.v`, `Proofs_Names.v`, `Properties_Names.v` | C89: the names of parsers do not matter |
| `SpecMoved.v`, `Proofs_Moved.v`, `Properties_Moved.v` | C38 for error messages: `unpaired` positions move along |
| `SpecVague.v`, `Proofs_Vague.v`, `Properties_Vague.v` | C37 for error messages: where the C++98 and the variadic implementations differ |
| `Tests.v` | the assertions of test/*.cpp, as examples |
| `Tests_Reference.v` | the assertions of the examples in doc/*.qbk |
| `Tests_Guide.v` | the model of generate_all.py run on doc/getting_started.qbk, which is one of the guides of C71 and C72 |
| `Tests_Headers.v` | the model of string_headers.py gives the shipped cpp11/impl/string.hpp |

The `Properties_*.v` files contain the theorems, beside each one an example that
meets its hypotheses, and `Print Assumptions`.

## 5. Plan per property

| id | model | proof |
|----|-------|-------|
| C01-C03 | `eval` over `pexpr` | one invariant "good outcome" (remaining is a suffix, positions are the start advanced over a prefix), a lemma per combinator, induction over depth and expression; user natives and `transform_error` carry the invariant as hypothesis |
| C04 | `one_char` position step | order lemma: each step strictly increases (line, col); prefixes ordered by length |
| C05,C06 | same | independent line splitter; C06 is refuted (CR LF) and proved exactly with the correction term |
| C07 | comparison metafunctions | case analysis over integers |
| C08-C13 | fold headers | independent inductive relation "p accepts these results in a row and then rejects"; iff theorems over all fuel |
| C14 | same | induction on length of input; divergence by induction on fuel |
| C15,C16 | both implementations | inductive relation for running parsers in a row; iff and equality theorems |
| C17-C19 | both implementations | independent description of ordered choice and of the winning error; refutations by concrete witnesses |
| C20,C21 | all | pointwise equality of outcomes for all arguments; `_refuted` witnesses for the false ones with the exact relation proved beside |
| C22,C23,C29,C30 | single headers | case analysis, stated as iff |
| C24 | keyword | induction on the keyword |
| C25 | character parsers | iff with class membership |
| C26,C27 | int_, digits | independent decimal value function, induction over digit lists; overflow ill-formed |
| C28 | token/spaces | maximal run characterised by span |
| C31 | iterate | induction on n; divergence |
| C32 | build_parser | case analysis |
| C33-C35 | strings | list laws; refinement relation for the padded representation; refutations at capacity |
| C36 | eval | approximation order, monotonicity lemma per combinator |
| C37 | eval at two standards | both related to the parser without messages (C86); for messages induction over the rules of C64 |
| C38 | eval at two positions | logical relation on outcomes; for messages induction over the rules of C64 |
| C39 | grammar rule parser | token level specification of the EBNF; soundness by induction on the depth, completeness by induction on the derivation with follow sets, totality from C46 and C47 |
| C40 | grammar builder | independent PEG relation; outcome implies verdict, verdicts are unique, totality from C46 and C47 |
| C41 | grammar builder | a successful instantiation is a derivation (`built`); pigeonhole on reference paths for the depth bound |
| C42 | python ranges | arithmetic; refuted with witness, proved under the side condition |
| C43 | C++98 arities | refuted with witness at the limit |
| C44 | message texts | rendering functions and injectivity |
| C45 | debug_parsing_error | injectivity of the report |
| C46 | eval | nullable/left-reach analysis over `pexpr`, measure (input length, rank); divergence by induction on fuel |
| C47 | eval | types as sets of values, one lemma per combinator, induction over depth and expression |
| C48,C49 | the example calculators | token level grammar with values; soundness by induction on the depth, completeness by mutual induction on derivations (every chain of operations continues to its end), progress of positions for the strict chains, totality from C46; the early tutorial parsers: readings composed like the parsers, each with exact accept, reject and ill-formed cases |
| C50-C54 | the smaller examples | decomposition of every text into its longest runs of characters of one class; exact outcome in each case; determinism gives both directions |
| C55-C58 | functions and calculators from grammars | one lemma for left-associative chains of operands covers foldl and the list form of grammar rules; each parser is shown to have a `verdict` (accepts iff the text has a reading, with the denotation of the reading); denotations are related to the values by induction over expressions |
| C59 | the parser of meta_hs | a general lemma about strict left-associative chains (complete and sound relative to what may follow); each level of the grammar is such a chain; two readings of the text bound the language from both sides and coincide on texts where `if` is a separate word |
| C60 | evaluation in meta_hs | classes represent unevaluated arguments or values; by strong induction on the depth, the class at the end of the base classes is the value behind as many layers as the rules say; conversely by induction on the derivation; erasing the layers gives call by name; more fuel never changes a result |
| C61 | completeness of meta_hs | in the programs described no more than one layer ever arises, by induction on the derivation; three witnesses outside |
| C62 | the example of meta_hs | the texts are read by C59, the values follow from C61 and determinism, by induction on the argument |
| C63 | the errors of the calculators | by induction on depth and folds every rejection is at a place where the tokens read so far fit the grammar and an automaton (depth of brackets, operand or operator expected) does not allow the next character; tokens are read in one way only, so no other continuation is possible; the automaton also shows that at most one complaint fits |
| C64 | the rules of the reference | from the model to the rules by induction over depth and expression, from the rules to the model by mutual induction on derivations (results hold from some depth on); uses the iff lemmas of C08-C18 |
| C65 | `eval_on` over an implementation of strings | a relation between a parser on lists and one on strings, a lemma per combinator, induction over depth and expression; for strings of full length the invariant "nothing is consumed" in the same way |
| C66 | `replaced`, rules of the reference | mutual induction on derivations of the changed program; a replacement at the top is reduced to replacements below it |
| C67 | `law`, `rewritten` | each law by inversion of derivations; nested choices by the algebra of "last one of the furthest errors"; rewriting by C66 |
| C68 | char_stat.py, generate.py | the six ways to write a character; a dictionary is a partition of the indices |
| C69 | `convert_from`, `to_upper` | the macro name has no proper prefix inside it, so the first occurrence is the next string; induction over strings and files |
| C70 | `format_time` | invariant of the loop: what is left is at most the current unit |
| C71 | `parse_md`, `gen_headers` | a guide as a list of parts, its text is read back part by part; sorting by number keeps an ordered list; a preprocessor as inference rules, induction over the chain of headers |
| C72 | `what_we_have_so_far_docs` | protecting for Metashell and removing the protection cancel line by line; a page is made when the definitions collected so far are not empty; the pattern for numbers finds a heading exactly when its number has one digit per component |
| C73 | the same, `extract_code_snippets` | what a loop removes is what it adds; simulation of the second and third run by the first |
| C74 | `extract_code_snippets` | the loop over the lines of a guide, part by part |
| C75 | `generate_all` | notes keep the lines the links depend on |
| C76 | `string_header` | the text is read back line by line; each line is a directive with known effect, or a declaration; expansion of nested index macros by induction over the limits; recursion of make_string by strong induction on the length |
| C77 | `sum_parser`, ... | folding from both ends by induction over the list of runs, generalised to any separators and any sum-like operation; readings compared as in C49 |
| C78 | `eval`, through the rules of C64 | induction over the rules, with one derivation for every application made; applications of a parser to the same suffix are equal because suffixes determine positions (C36), so they can be counted by parser and length; a step of a fold that consumes nothing would be repeated for ever |
| C79 | `eval`, through the rules of C64 | induction over the rules along the applications of C78 |
| C80 | `Template`, the regular expressions of generate.py | the forms of the lines are unambiguous: what follows a loop does not begin with a character of the loop |
| C81 | `generate_main`, `benchmark`, `plotted` | names of files are injective; dictionaries with fresh keys are lists; sorting a permutation of an ascending list |
| C82 | `preprocess` over `headers` | a table says for every header which headers it brings and what it needs; the table is checked once for each of thirteen kinds of compilers by computation, the check is proved sound for all lists of headers and all macros |
| C83 | `l_eval` | every combinator preserves: equal to the model of `Deep.v` at a position; the same outcome, or ill-formed, at a metafunction; induction over depth and expression |
| C84 | `main` of build_environment.py | each step extends the list of programs run by its part of the plan or stops in it; induction over the submodules; the 128 characters one by one for the strings of json |
| C85 | grammar builder | what a list of declarations says is unique and decides the grammar; instantiation depends only on the lookups of names used, up to renaming; inlining by induction over instantiations, both ways |
| C86 | eval of an expression and of the expression without messages | relation between outcomes that ignores messages, kept by every combinator |
| C87 | applications made while parsing (C78) | each step of a walk adds at most one to line plus column |
| C88 | recognition relation of parsing expressions (Ford), translation of parser expressions | mutual induction over the rules of C64; determinism of recognition with C46 and C47 gives equality |
| C89 | two programs and a correspondence of their names; renaming, inlining, unused definitions, definitions with a rank | induction over the rules of C64, the correspondence being a bisimulation |
| C90 | `peg_of` of C88 | induction over recognition and over derivations; termination by length, rank and structure |
| C91 | `cfg_of` (`SpecBlame.v`): the grammar of a parser, repetitions rejecting incomplete elements | grammars that report the furthest error are shown to stop at the longest beginning of a word (induction over `blames`, one character deciding); the rules of C64 are shown to behave like them |
| C92 | `means` (`SpecMeans.v`): the values a word can have, alternatives unordered and repetitions stopping anywhere | soundness by induction over the rules of C64, every value is of a derivation (`means_derives`), uniqueness of the value by induction over `means` with the uniqueness of the word of C90 (`one_value`), existence from the verdicts of C88/C91; refuted where one character does not decide |
| C93 | `split`, `same_tokens`, `tokens_only` (`SpecLayout.v`): the tokens of a text by maximal words; parsers that read tokens only | a simulation over the rules of C64 parameterised by the relation of texts where parsers are applied and where errors are (`good_simulates`), used twice: inside a word (same word, different continuation) and between tokens; errors of a choice correspond because the number of characters that are not white space orders the places; the examples are instances |
| C94 | `choice_law`, `agree_but_message`, `exclusive`, `goes_ahead`, `longer_first` (`SpecChoice.v`): the changes of a choice and when two parsers agree up to messages | the position of the error of a choice is the greatest of the positions of its alternatives and its start, whatever the implementation, so lists of alternatives with the same greatest position agree; replacing inside programs is an induction over the rules of C64 as for C66, up to messages; the side condition `goes_ahead` is discharged by C02 and C03; refutations compute two runs |
| C95 | `value_of`, `reads_operations`, `nothing_follows` (`SpecPrecedence.v`): operands and operators in turn, the last operator of those that bind least applied last | induction on the levels; in one direction induction on the repetition of a fold, which adds an operator of the weakest level; in the other one induction on the value, where an operator of the weakest level stops the inner folds because it is no operator of theirs; the conditions are proved for operators of one character and for the calculators and the tutorial (results are not void by an induction over the rules of C64) |
| C96 | `fold_law`, `alternately`, `no_more`, `separated_after`, `separated_before` (`SpecRepeat.v`) | laws of `lfold` and `rfold` by induction on lists, carried over by characterising the results of every fold; right recursion by induction on the rules; the rest by the uniqueness of results (C64) and replacement (C66) |
| C97 | `spells`, `worth`, `arithmetic`, `written` (`SpecFormula.v`): the texts, the value and the shortest text of a formula; conditions on the parsers of words and signs | accepted: induction on the text, turning it into the operations of C95; only: induction on the length of the text; one formula for a text: the parser with functions that build the formula, and the uniqueness of results (C64) |
| C98 | `grouped_value` (`SpecGrouping.v`): the operator applied last is the last or the first one of those that bind least, depending on how its level groups; `reads_operations` and the conditions of C95 | induction on the levels as for C95; for a fold to the right induction on the repetition, which adds an operator in front, and on the value; where it stops by the uniqueness of results (C64) |
| C99 | `operand_missing` (`SpecGrouping.v`): an operand is rejected at the beginning or after operands and operators in turn | errors are missing operands: induction on the levels and on the repetition of a fold; missing operands are errors: induction on the levels, splitting the operations at the last (fold to the left) or the first (fold to the right) operator of the weakest level |
| C100 | `grouped_spells`, `grouped_worth`, `grouped_written` (`SpecGroupedFormula.v`): the texts, the value and the shortest text of a formula when levels group in different ways | as for C97, with the values of C98 instead of those of C95; the program with numbers (`tutorial_program`) is put together from the functions and parsers of the tutorial, it is not a file of the repository |
| C101 | `begins_formula`, `operand_wanted`, `no_operand`, `unclosed` (`SpecFault.v`): the beginning of a text of a formula, and what is missing after it | induction on the length of the text, with C99 for where the missing operand is; that operands and operators in turn are a formula by a table of functions defined everywhere (C98: every such row has a value); the place of an error in a choice is the furthest one (C94). That the beginning is the longest one (C101_longest, for the calculators) by an automaton with three states that texts of formulas run through, and by counting brackets (`Proofs_Fault2.v`). Left open there: a next character that is white space or a digit after a digit, which the parsers would have read, and the tutorial's lenient parsers, which can report an error before an operator |
