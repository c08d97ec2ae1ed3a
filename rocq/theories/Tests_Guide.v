(** The model of tools/generate_all.py computes all the generated files of this
    commit: from doc/getting_started.qbk, whose text follows, the headers in
    example/getting_started, the files doc/before_*.qbk and
    doc/getting_started_*.qbk, and doc/getting_started.qbk itself. *)

From Coq Require Import String.
From Coq Require Import ZArith List Bool.
From Verif Require Import Base Messages Generate Spec SpecGenerate Properties_Generate.
Import ListNotations.
Open Scope Z_scope.

(** A line *)
Definition ln (s : String.string) : str := literal s ++ nl.

(** doc/getting_started.qbk *)
Definition guide : list str := [
  ln "[#getting_started]";
  ln "[section Getting started with Boost.Metaparse]";
  ln "";
  ln "[section 1. Introduction]";
  ln "";
  ln "This tutorial shows you how to build a parser for a small calculator language";
  ln "from the ground up. The goal is not to have a complete calculator, but to show";
  ln "you the most common situations one can face while building a parser using";
  ln "Metaparse. This tutorial assumes, that you have some template metaprogramming";
  ln "experience.";
  ln "";
  ln "[section 1.1. Testing environment]";
  ln "";
  ln "While you are using Metaparse, you will be writing parsers turning an input text";
  ln "into a type. These types can later be processed by further template";
  ln "metaprograms. While you are working on your parsers, you'll probably want to";
  ln "look at the result of parsing a test input. This tutorial assumes that you can";
  ln "use [@http://metashell.org Metashell]. Since the";
  ln "[@http://metashell.org/about/demo online demo] makes the Boost";
  ln "headers available, you can use that in the tutorial as well.";
  ln "";
  ln "If you install Metashell on your computer, make sure that you have the Boost";
  ln "libraries and the `getting_started` example of Metaparse on the include path.";
  ln "For example, you can start Metashell with the following arguments:";
  ln "";
  ln "  $ metashell -I$BOOST_ROOT -I$BOOST_ROOT/libs/metaparse/example/getting_started";
  ln "";
  ln "`$BOOST_ROOT` refers to the ['boost root directory] (where you have checked";
  ln "out the Boost source code).";
  ln "";
  ln "This tutorial is long and therefore you might want to make shorter or longer";
  ln "breaks while reading it. To make it easy for you to stop at a certain point and";
  ln "continue later (or to start in the middle if you are already familiar with the";
  ln "basics) Metaparse has a `getting_started` directory in the `example`s. This";
  ln "contains the definitions for each section of this tutorial.";
  ln "";
  ln "If you're about to start (or continue) this guide from section 5.2.1, you can";
  ln "include `5_2_1.hpp`. This will define everything you need to start with that";
  ln "section.";
  ln "";
  ln "[note";
  ln "You have access to these headers in the online Metashell demo as well. For";
  ln "example you can include the `<boost/metaparse/getting_started/5_2_1.hpp>`";
  ln "header to start from section 5.2.1.";
  ln "]";
  ln "";
  ln "[endsect]";
  ln "";
  ln "[section 1.2. Using a ""regular"" testing environment]";
  ln "";
  ln "If you have no access to Metashell or you prefer using your regular C++";
  ln "development environment while processing this tutorial, this is also possible.";
  ln "";
  ln "The tutorial (and usually experimenting with Metaparse) requires that you";
  ln "evaluate different template metaprogramming expressions and check their result,";
  ln "which is a type. Thus, to try the examples of this tutorial you need a way to";
  ln "be able to display the result of evaluating a template metaprogram. This section";
  ln "shows you two options.";
  ln "";
  ln "[section 1.2.1. Enforcing an error message or a warning containing the result of";
  ln "the metafunction call]";
  ln "";
  ln "You can either use `boost::mpl::print` or `mpllibs::metamonad::fail_with_type`";
  ln "to enforce a warning or an error message containing the result of a metaprogram";
  ln "evaluation. For example to see what";
  ln "[link BOOST_METAPARSE_STRING `BOOST_METAPARSE_STRING`]`(""11 + 2"")` refers to,";
  ln "you can create a `test.cpp` with the following content:";
  ln "";
  ln "  #include <boost/metaparse/string.hpp>";
  ln "  #include <boost/mpl/print.hpp>";
  ln "";
  ln "  boost::mpl::print<BOOST_METAPARSE_STRING(""11 + 2"")> x;";
  ln "";
  ln "If you try to compile it, the compiler will display warnings containing the";
  ln "type the expression";
  ln "[link BOOST_METAPARSE_STRING `BOOST_METAPARSE_STRING`]`(""11 + 2"")` constructs.";
  ln "To use this technique for this tutorial, you need to add all the includes and";
  ln "definitions the tutorial suggests typing in the shell to your `test.cpp` file.";
  ln "When the shell suggests to try to call some metafunction (or you'd like to try";
  ln "something out), you need to replace the template argument of `boost::mpl::print`";
  ln "with the expression in question and recompile the code.";
  ln "";
  ln "[endsect]";
  ln "";
  ln "[section 1.2.2. Displaying the result of the metafunction call at runtime]";
  ln "";
  ln "You can also display the result of metaprograms at runtime. You can use the";
  ln "[@http://boost.org/libs/type_index Boost.TypeIndex] library to do this. For";
  ln "example to see what";
  ln "[link BOOST_METAPARSE_STRING `BOOST_METAPARSE_STRING`]`(""11 + 2"")` refers to,";
  ln "you can create a `test.cpp` with the following content:";
  ln "";
  ln "  #include <boost/metaparse/string.hpp>";
  ln "  #include <boost/type_index.hpp>";
  ln "  #include <iostream>";
  ln "";
  ln "  int main()";
  ln "  {";
  ln "    std::cout";
  ln "      << boost::typeindex::type_id_with_cvr<BOOST_METAPARSE_STRING(""11 + 2"")>()";
  ln "      << std::endl;";
  ln "  }";
  ln "";
  ln "If you compile and run this code, it will display the type on the standard";
  ln "output.";
  ln "";
  ln "[endsect]";
  ln "";
  ln "[endsect]";
  ln "";
  ln "[endsect]";
  ln "";
  ln "[section 2. The text to parse]";
  ln "";
  ln "With Metaparse you can create template metaprograms parsing an input text. To";
  ln "pass the input text to the metaprograms, you need to represent them as types.";
  ln "For example let's represent the text `""Hello world""` as a type. The most";
  ln "straightforward way of doing it would be creating a variadic template class";
  ln "taking the characters of the text as template arguments:";
  ln "";
  ln "  template <char... Cs>";
  ln "  struct string;";
  ln "";
  ln "The text `""11 + 2""` can be represented the following way:";
  ln "";
  ln "  string<'1', '1', ' ', '+', ' ', '2'>";
  ln "";
  ln "Metaparse provides this type for you. Run the following command in Metashell:";
  ln "";
  ln "  > #include <boost/metaparse/string.hpp>";
  ln "";
  ln "[note";
  ln "Note that the `>` character at the beginning of the above code example is the";
  ln "prompt of Metashell. It is added to the code examples as a hint to what you";
  ln "should run in Metashell (or add to your test `cpp` file if you are using a";
  ln "regular development environment).";
  ln "]";
  ln "";
  ln "[note";
  ln "Note that in the [@http://abel.web.elte.hu/shell/metashell.html online-demo]";
  ln "of Metashell you can paste code into the shell by right-clicking on the shell";
  ln "somewhere and choosing ['Paste from browser] in the context menu.";
  ln "]";
  ln "";
  ln "This will make this type available for you. Now you can try running the";
  ln "following command:";
  ln "";
  ln "  > boost::metaparse::string<'1', '1', ' ', '+', ' ', '2'>";
  ln "";
  ln "The shell will echo (almost) the same type back to you. The only difference is";
  ln "that it is in a sub-namespace indicating the version of Metaparse being used.";
  ln "";
  ln "The nice thing about this representation is that metaprograms can easily access";
  ln "the individual characters of the text. The not so nice thing about this";
  ln "representation is that if you want to write the text `""Hello world""` in your";
  ln "source code, you have to type a lot.";
  ln "";
  ln "Metaparse provides a macro that can turn a string literal into an instance of";
  ln "[link string `boost::metaparse::string`]. This is the";
  ln "[link BOOST_METAPARSE_STRING `BOOST_METAPARSE_STRING`] macro. You get it by";
  ln "including `<boost/metaparse/string.hpp>`. Let's try it by running the following";
  ln "command in Metashell:";
  ln "";
  ln "  > BOOST_METAPARSE_STRING(""11 + 2"")";
  ln "";
  ln "You will get the same result as you got by instantiating";
  ln "[link string `boost::metaparse::string`] yourself.";
  ln "";
  ln "[endsect]";
  ln "";
  ln "[section 3. Creating a simple parser]";
  ln "[note Note that you can find everything that has been included and defined so far [link before_3 here].]";
  ln "";
  ln "Let's try creating a parser. We will start with creating a parser for something";
  ln "simple: we will be parsing integer numbers, such as the text `""13""`. You can";
  ln "think of this first parsing exercise as a ['template metaprogramming";
  ln "string-to-int conversion] because we expect to get the value `13` as the result";
  ln "of parsing.";
  ln "";
  ln "[note";
  ln "You know the difference between `""13""` and `13` in C++. One of them is a";
  ln "character array, the other one is an integral value. But what is the";
  ln "difference between them in template metaprogramming? They are represented by";
  ln "different types. For example `""13""` is represented by";
  ln "[link string `string`]`<'1', '3'>` while `13` is represented by";
  ln "`std::integral_constant<int, 13>`.";
  ln "]";
  ln "";
  ln "To build a parser, we need to specify the grammar to use. Metaparse provides";
  ln "building blocks (called parsers) we can use to do this and one of them is the";
  ln "[link int_ `int_`] parser which does exactly what we need: it parses integers.";
  ln "To make it available, we need to include it:";
  ln "";
  ln "  > #include <boost/metaparse/int_.hpp>";
  ln "";
  ln "Our grammar is simple: [link int_ `int_`]. (Don't worry, we'll parse more";
  ln "complicated languages later).";
  ln "";
  ln "A parser is a [link metafunction_class template metafunction class]. It can be";
  ln "used directly, but its interface is designed for completeness and not for ease";
  ln "of use. Metaparse provides the [link build_parser `build_parser`]";
  ln "[link metafunction metafunction] that adds a wrapper to parsers with a simple";
  ln "interface.";
  ln "";
  ln "[note";
  ln "In this tutorial, we will always be wrapping our parsers with this. We will";
  ln "call these wrapped parsers parsers as well. If you are interested in it, you";
  ln "can learn about the complete interface of parsers [link parser here].";
  ln "]";
  ln "";
  ln "Let's create a parser using [link int_ `int_`] and";
  ln "[link build_parser `build_parser`]:";
  ln "";
  ln "  > #include <boost/metaparse/build_parser.hpp>";
  ln "  > using namespace boost::metaparse;";
  ln "  > using exp_parser1 = build_parser<int_>;";
  ln "";
  ln "[link getting_started_0 copy-paste friendly version]";
  ln "";
  ln "First we need to include `build_parser.hpp` to make";
  ln "[link build_parser `build_parser`]  available. Then we make our lives easier by";
  ln "running `using namespace boost::metaparse;`. The third command defines the";
  ln "parser: we need to instantiate the [link build_parser `build_parser`] template";
  ln "class with our parser ([link int_ `int_`] in this case) as argument.";
  ln "";
  ln "Now that we have a parser, let's parse some text with it (if you haven't done it";
  ln "yet, include `boost/metaparse/string.hpp`):";
  ln "";
  ln "  > exp_parser1::apply<BOOST_METAPARSE_STRING(""13"")>::type";
  ln "  mpl_::integral_c<int, 13>";
  ln "";
  ln "`exp_parser1` is a [link metafunction_class template metafunction class] taking";
  ln "the input text as it's argument and it returns the integral representation of";
  ln "the number in the string. Try it with different numbers and see how it converts";
  ln "them.";
  ln "";
  ln "[section 3.1. Dealing with invalid input]";
  ln "[note Note that you can find everything that has been included and defined so far [link before_3_1 here].]";
  ln "";
  ln "Have you tried parsing an invalid input? Something that is not a number, such";
  ln "as:";
  ln "";
  ln "  > exp_parser1::apply<BOOST_METAPARSE_STRING(""thirteen"")>::type";
  ln "  << compilation error >>";
  ln "";
  ln "Well, `""thirteen""` ['is] a number, but our parser does not speak English, so it";
  ln "is considered as invalid input. As a result of this, compilation fails and you";
  ln "get a compilation error from Metashell.";
  ln "";
  ln "In the [@#dealing-with-invalid-input-1 Dealing with invalid input] section we";
  ln "will go into further details on error handling.";
  ln "";
  ln "[endsect]";
  ln "";
  ln "[section 3.2. Dealing with input containing more than what is needed]";
  ln "[note Note that you can find everything that has been included and defined so far [link before_3_2 here].]";
  ln "";
  ln "Let's try to give the parser two numbers instead of one:";
  ln "";
  ln "  > exp_parser1::apply<BOOST_METAPARSE_STRING(""11 13"")>::type";
  ln "  mpl_::integral_c<int, 11>";
  ln "";
  ln "You might be surprised by this: the parser did not return an error. It parsed";
  ln "the first number, `11` and ignored `13`. The way [link int_ `int_`] works is";
  ln "that it parses the number at the beginning of the input text and ignores the";
  ln "rest of the input.";
  ln "";
  ln "So `exp_parser1` has a bug: our little language consists of ['one] number, not a";
  ln "['list of numbers]. Let's fix our parser to treat more than one numbers as an";
  ln "invalid input:";
  ln "";
  ln "  > #include <boost/metaparse/entire_input.hpp>";
  ln "";
  ln "This gives us the [link entire_input `entire_input`] template class. We can";
  ln "wrap [link int_ `int_`] with [link entire_input `entire_input`] indicating";
  ln "that the number we parse with [link int_ `int_`] should be the entire input.";
  ln "Anything that comes after that is an error. So our parser is";
  ln "[link entire_input `entire_input`]`<`[link int_ `int_`]`>` now. Let's wrap it";
  ln "with [link build_parser `build_parser`]:";
  ln "";
  ln "  > using exp_parser2 = build_parser<entire_input<int_>>;";
  ln "";
  ln "Let's try this new parser out:";
  ln "";
  ln "  > exp_parser2::apply<BOOST_METAPARSE_STRING(""13"")>::type";
  ln "  mpl_::integral_c<int, 13>";
  ln "";
  ln "It can still parse numbers. Let's try to give it two numbers:";
  ln "";
  ln "  > exp_parser2::apply<BOOST_METAPARSE_STRING(""11 13"")>::type";
  ln "  << compilation error >>";
  ln "";
  ln "This generates a compilation error, since the parser failed.";
  ln "";
  ln "[endsect]";
  ln "";
  ln "[section 3.3. Accepting optional whitespaces at the end of the input]";
  ln "[note Note that you can find everything that has been included and defined so far [link before_3_3 here].]";
  ln "";
  ln "Our parser became a bit too";
  ln "restrictive now. It doesn't allow ['anything] after the number, not even";
  ln "whitespaces:";
  ln "";
  ln "  > exp_parser2::apply<BOOST_METAPARSE_STRING(""11 "")>::type";
  ln "  << compilation error >>";
  ln "";
  ln "Let's allow whitespaces after the number:";
  ln "";
  ln "  > #include <boost/metaparse/token.hpp>";
  ln "";
  ln "This makes the [link token `token`] template class available. It takes a parser";
  ln "as its argument and allows optional whitespaces after that. Let's create a third";
  ln "parser allowing whitespaces after the number:";
  ln "";
  ln "  > using exp_parser3 = build_parser<entire_input<token<int_>>>;";
  ln "";
  ln "We expect [link token `token`]`<`[link int_ `int_`]`>` to be the entire input";
  ln "in this case. We allow optional whitespaces after [link int_ `int_`] but";
  ln "nothing else:";
  ln "";
  ln "  > exp_parser3::apply<BOOST_METAPARSE_STRING(""11 "")>::type";
  ln "  mpl_::integral_c<int, 11>";
  ln "";
  ln "[endsect]";
  ln "";
  ln "[endsect]";
  ln "";
  ln "[section 4. Parsing simple expressions]";
  ln "[note Note that you can find everything that has been included and defined so far [link before_4 here].]";
  ln "";
  ln "We can parse numbers. Let's try parsing something more complicated, such as";
  ln "`""11 + 2""`. This is a number followed by a `+` symbol followed by another";
  ln "number. [link int_ `int_`] (or [link token `token`]`<`[link int_ `int_`]`>`)";
  ln "implements the parser for one number.";
  ln "";
  ln "First, let's write a parser for the `+` symbol. We can use the following:";
  ln "";
  ln "  > #include <boost/metaparse/lit_c.hpp>";
  ln "";
  ln "This gives us [link lit_c `lit_c`] which we can use to parse specific";
  ln "characters, such as `+`. The grammar parsing the `+` character can be";
  ln "represented by [link lit_c `lit_c`]`<'+'>`. To allow optional whitespaces after";
  ln "it, we should use [link token `token`]`<`[link lit_c `lit_c`]`<'+'>>`.";
  ln "";
  ln "So to parse `""11 + 2""` we need the following sequence of parsers:";
  ln "";
  ln "  token<int_>    token<lit_c<'+'>>    token<int_>";
  ln "";
  ln "Metaparse provides [link sequence `sequence`] for parsing the sequence of";
  ln "things:";
  ln "";
  ln "  > #include <boost/metaparse/sequence.hpp>";
  ln "";
  ln "We can implement the parser for our expressions using";
  ln "[link sequence `sequence`]:";
  ln "";
  ln "  sequence<token<int_>, token<lit_c<'+'>>, token<int_>>";
  ln "";
  ln "Let's create a parser using it:";
  ln "";
  ln "  > using exp_parser4 = build_parser<sequence<token<int_>, token<lit_c<'+'>>, token<int_>>>;";
  ln "";
  ln "Try parsing a simple expression using it:";
  ln "";
  ln "  > exp_parser4::apply<BOOST_METAPARSE_STRING(""11 + 2"")>::type";
  ln "  boost::mpl::v_item<mpl_::integral_c<int, 2>, boost::mpl::v_item<mpl_::char_<'+'>";
  ln "  , boost::mpl::v_item<mpl_::integral_c<int, 11>, boost::mpl::vector0<mpl_::na>, 0";
  ln "  >, 0>, 0>";
  ln "";
  ln "What you get might look strange to you. It is a `vector` from [Boost.MPL](";
  ln "http://boost.org/libs/mpl). What you can see in the shell is the way this vector";
  ln "is represented. Metashell offers";
  ln "[pretty printing](metashell.org/manual/getting_started#data-structures-of-boostmpl)";
  ln "for [@http://boost.org/libs/mpl Boost.MPL] containers:";
  ln "";
  ln "  > #include <metashell/formatter.hpp>";
  ln "";
  ln "After including this header, try parsing again:";
  ln "";
  ln "  > exp_parser4::apply<BOOST_METAPARSE_STRING(""11 + 2"")>::type";
  ln "  boost_::mpl::vector<mpl_::integral_c<int, 11>, mpl_::char_<'+'>, mpl_::integral_c<int, 2> >";
  ln "";
  ln "What you get now looks more simple: this is a vector of three elements:";
  ln "";
  ln "* `mpl_::integral_c<int, 11>` This is the result of parsing with";
  ln "  [link token `token`]`<`[link int_ `int_`]`>`.";
  ln "* `mpl_::char_<'+'>` This is the result of parsing with";
  ln "  [link token `token`]`<`[link lit_c `lit_c`]`<'+'>>`.";
  ln "* `mpl_::integral_c<int, 2> >` This is the result of parsing with";
  ln "  [link token `token`]`<`[link int_ `int_`]`>`.";
  ln "";
  ln "The result of parsing with a [link sequence `sequence`] is the `vector` of the";
  ln "individual parsing results.";
  ln "";
  ln "[section 4.1. Tokenizer]";
  ln "[note Note that you can find everything that has been included and defined so far [link before_4_1 here].]";
  ln "";
  ln "You might have noticed that our parsers have no separate tokenizers.";
  ln "Tokenization is part of the parsing process. However, it makes the code of the";
  ln "parsers cleaner if we separate the two layers. The previous example has two";
  ln "types of tokens:";
  ln "";
  ln "* a number (eg. `13`)";
  ln "* a `+` symbol";
  ln "";
  ln "In our last solution we parsed them by using the";
  ln "[link token `token`]`<`[@int_html `int_`]`>` and";
  ln "[link token `token`]`<`[link lit_c `lit_c`]`<'+'>>` parsers. Have you noticed";
  ln "a pattern? We wrap the parsers of the tokens with [link token `token`]`<...>`.";
  ln "It is not just syntactic sugar. Our tokens might be followed (separated) by";
  ln "whitespaces, which can be ignored. That is what [link token `token`]`<...>`";
  ln "implements.";
  ln "";
  ln "So let's make the implementation of `exp_parser` cleaner by separating the";
  ln "tokenization from the rest of the parser:";
  ln "";
  ln "  > using int_token = token<int_>;";
  ln "  > using plus_token = token<lit_c<'+'>>;";
  ln "";
  ln "[link getting_started_1 copy-paste friendly version]";
  ln "";
  ln "These two definitions create type aliases for the parsers of our tokens. For the";
  ln "compiler it doesn't matter if we use `plus_token` or";
  ln "[link token `token`]`<`[link lit_c `lit_c`]`<'+'>>`, since they refer to the";
  ln "same type. But it makes the code of the parser easier to understand.";
  ln "";
  ln "We can now define our expression parser using these tokens:";
  ln "";
  ln "  > using exp_parser5 = build_parser<sequence<int_token, plus_token, int_token>>;";
  ln "";
  ln "We can use it the same way as `exp_parser4`:";
  ln "";
  ln "  > exp_parser5::apply<BOOST_METAPARSE_STRING(""11 + 2"")>::type";
  ln "  boost_::mpl::vector<mpl_::integral_c<int, 11>, mpl_::char_<'+'>, mpl_::integral_c<int, 2> >";
  ln "";
  ln "[endsect]";
  ln "";
  ln "[section 4.2. Evaluating the expression]";
  ln "[note Note that you can find everything that has been included and defined so far [link before_4_2 here].]";
  ln "";
  ln "It would be nice if we could evaluate the expression as well. Instead of";
  ln "returning a `vector` as the result of parsing, we should return the evaluated";
  ln "expression. For example the result of parsing `""11 + 2""` should be";
  ln "`mpl_::integral_c<int, 13>`.";
  ln "";
  ln "Metaparse provides [link transform `transform`] which we can use to implement";
  ln "this:";
  ln "";
  ln "  > #include <boost/metaparse/transform.hpp>";
  ln "";
  ln "This can be used to transform the result of a parser. For example we have the";
  ln "[link sequence `sequence`]`<int_token, plus_token, int_token>` parser which";
  ln "returns a `vector`. We want to transform this `vector` into a number, which is";
  ln "the result of evaluating the expression. We need to pass";
  ln "[link transform `transform`] the [link sequence `sequence`]`<...>` parser and";
  ln "a function which turns the `vector` into the result we need. First let's create";
  ln "this [link metafunction metafunction]:";
  ln "";
  ln "  > #include <boost/mpl/plus.hpp>";
  ln "  > #include <boost/mpl/at.hpp>";
  ln "  > template <class Vector> \";
  ln "  ...> struct eval_plus : \";
  ln "  ...>   boost::mpl::plus< \";
  ln "  ...>     typename boost::mpl::at_c<Vector, 0>::type, \";
  ln "  ...>     typename boost::mpl::at_c<Vector, 2>::type \";
  ln "  ...>   > {};";
  ln "";
  ln "[link getting_started_2 copy-paste friendly version]";
  ln "";
  ln "[note";
  ln "Note that if the last character of your command is the `\` character in";
  ln "Metashell, then the shell assumes that you will continue typing the same command";
  ln "and waits for that before evaluating your command. When Metashell is waiting for";
  ln "the second (or third, or fourth, etc) line of a command, it uses a special";
  ln "prompt, `...>`.";
  ln "]";
  ln "";
  ln "What it does is that using `boost::mpl::at_c` it takes the first (index 0) and";
  ln "the third (index 2) elements of the `vector` that is the result of parsing with";
  ln "[link sequence `sequence`]`<...>` and adds them. We can try it out with an";
  ln "example `vector`:";
  ln "";
  ln "  > eval_plus< \";
  ln "  ...>  boost::mpl::vector< \";
  ln "  ...>    mpl_::integral_c<int, 11>, \";
  ln "  ...>    mpl_::char_<'+'>, \";
  ln "  ...>    mpl_::integral_c<int, 2> \";
  ln "  ...>  >>::type";
  ln "  mpl_::integral_c<int, 13>";
  ln "";
  ln "[link getting_started_3 copy-paste friendly version]";
  ln "";
  ln "We can use `eval_plus` to build a parser that evaluates the expression it";
  ln "parses:";
  ln "";
  ln "  > #include <boost/mpl/quote.hpp>";
  ln "  > using exp_parser6 = \";
  ln "  ...> build_parser< \";
  ln "  ...>   transform< \";
  ln "  ...>     sequence<int_token, plus_token, int_token>, \";
  ln "  ...>     boost::mpl::quote1<eval_plus> \";
  ln "  ...>   > \";
  ln "  ...> >;";
  ln "";
  ln "[link getting_started_4 copy-paste friendly version]";
  ln "";
  ln "[note";
  ln "Note that we have to use `boost::mpl::quote1` to turn our `eval_plus`";
  ln "[link metafunction metafunction] into a";
  ln "[link metafunction_class metafunction class].";
  ln "]";
  ln "";
  ln "[link transform `transform`] parses the input using";
  ln "[link sequence `sequence`]`<int_token, plus_token, int_token>` and transforms";
  ln "the result of that using `eval_plus`. Let's try it out:";
  ln "";
  ln "  > exp_parser6::apply<BOOST_METAPARSE_STRING(""11 + 2"")>::type";
  ln "  mpl_::integral_c<int, 13>";
  ln "";
  ln "We have created a simple expression parser. The following diagram shows how it";
  ln "works:";
  ln "";
  ln "[$images/metaparse/tutorial_diag0.png [width 50%]]";
  ln "";
  ln "The rounded boxes in the diagram are the parsers parsing the input, which are";
  ln "functions ([link metafunction_class template metafunction class]es). The arrows";
  ln "represent how the results are passed around between these parsers (they are the";
  ln "return values of the function calls).";
  ln "";
  ln "It uses [link sequence `sequence`] to parse the different elements (the first";
  ln "number, the `+` symbol and the second number) and builds a `vector`. The final";
  ln "result is calculated from that `vector` by the [link transform `transform`]";
  ln "parser.";
  ln "";
  ln "[endsect]";
  ln "";
  ln "[endsect]";
  ln "";
  ln "[section 5. Parsing longer expressions]";
  ln "[note Note that you can find everything that has been included and defined so far [link before_5 here].]";
  ln "";
  ln "We can parse simple expressions adding two numbers together. But we can't parse";
  ln "expressions adding three, four or maybe more numbers together. In this section";
  ln "we will implement a parser for expressions adding lots of numbers together.";
  ln "";
  ln "[section 5.1. Parsing a subexpression repeatedly]";
  ln "[note Note that you can find everything that has been included and defined so far [link before_5_1 here].]";
  ln "";
  ln "We can't solve this problem with [link sequence `sequence`], since we don't";
  ln "know how many numbers the input will have. We need a parser that:";
  ln "";
  ln "* parses the first number";
  ln "* keeps parsing `+ <number>` elements until the end of the input";
  ln "";
  ln "Parsing the first number is something we can already do: the `int_token` parser";
  ln "does it for us. Parsing the `+ <number>` elements is more tricky. Metaparse";
  ln "offers different tools for approaching this. The most simple is";
  ln "[link repeated `repeated`]:";
  ln "";
  ln "  > #include <boost/metaparse/any.hpp>";
  ln "";
  ln "[link repeated `repeated`] needs a parser (which parses one `+ <number>`";
  ln "element) and it keeps parsing the input with it as long as it can. This will";
  ln "parse the entire input for us. Let's create a parser for our expressions using";
  ln "it:";
  ln "";
  ln "  > using exp_parser7 = \";
  ln "  ...> build_parser< \";
  ln "  ...>   sequence< \";
  ln "  ...>     int_token,                                /* The first <number> */ \";
  ln "  ...>     repeated<sequence<plus_token, int_token>> /* The ""+ <number>"" elements */ \";
  ln "  ...>   > \";
  ln "  ...> >;";
  ln "";
  ln "[link getting_started_5 copy-paste friendly version]";
  ln "";
  ln "We have a [link sequence `sequence`] with two elements:";
  ln "";
  ln "* The first number (`int_token`)";
  ln "* The `+ <number>` parts";
  ln "";
  ln "The second part is an [link repeated `repeated`], which parses the `+ <number>`";
  ln "elements. One such element is parsed by";
  ln "[link sequence `sequence`]`<plus_token, int_token>`. This is just a sequence of";
  ln "the `+` symbol and the number.";
  ln "";
  ln "Let's try parsing an expression using this:";
  ln "";
  ln "  > exp_parser7::apply<BOOST_METAPARSE_STRING(""1 + 2 + 3 + 4"")>::type";
  ln "";
  ln "Here is a formatted version of the result which is easier to read:";
  ln "";
  ln "  boost_::mpl::vector<";
  ln "    // The result of int_token";
  ln "    mpl_::integral_c<int, 1>,";
  ln "  ";
  ln "    // The result of repeated< sequence<plus_token, int_token> >";
  ln "    boost_::mpl::vector<";
  ln "      boost_::mpl::vector<mpl_::char_<'+'>, mpl_::integral_c<int, 2> >,";
  ln "      boost_::mpl::vector<mpl_::char_<'+'>, mpl_::integral_c<int, 3> >,";
  ln "      boost_::mpl::vector<mpl_::char_<'+'>, mpl_::integral_c<int, 4> >";
  ln "    >";
  ln "  >";
  ln "";
  ln "The result is a `vector` of two elements. The first element of this `vector` is";
  ln "the result of parsing the input with `int_token`, the second element of this";
  ln "`vector` is the result of parsing the input with";
  ln "[link repeated `repeated`]`< `[link sequence `sequence`]`<plus_token, int_token>>`.";
  ln "This second element is also a `vector`. Each element of this `vector` is the";
  ln "result of parsing the input with";
  ln "[link sequence `sequence`]`<plus_token, int_token>` once. Here is a diagram";
  ln "showing how `exp_parser7` parses the input `1 + 2 + 3 + 4`:";
  ln "";
  ln "[$images/metaparse/tutorial_diag1.png [width 90%]]";
  ln "";
  ln "The diagram shows that the `+ <number>` elements are parsed by";
  ln "[link sequence `sequence`]`<plus_token, int_token>` elements and their results";
  ln "are collected by [link repeated `repeated`], which constructs a `vector` of";
  ln "these results. The value of the first `<number>` and this `vector` are placed in";
  ln "another `vector`, which is the result of parsing.";
  ln "";
  ln "[endsect]";
  ln "";
  ln "[section 5.2. Evaluating the parsed expression]";
  ln "[note Note that you can find everything that has been included and defined so far [link before_5_2 here].]";
  ln "";
  ln "The final result here is a pair of the first number and the `vector` of the rest";
  ln "of the values. To calculate the result we need to process that data structure.";
  ln "Let's give the example output we have just parsed a name. This will make it";
  ln "easier to test the code calculating the final result from this structure:";
  ln "";
  ln "  > using temp_result = exp_parser7::apply<BOOST_METAPARSE_STRING(""1 + 2 + 3 + 4"")>::type;";
  ln "";
  ln "Now we can write a [link metafunction template metafunction] turning this";
  ln "structure into the result of the calculation this structure represents.";
  ln "";
  ln "[section 5.2.1. Learning about `boost::mpl::fold`]";
  ln "[note Note that you can find everything that has been included and defined so far [link before_5_2_1 here].]";
  ln "";
  ln "We have a `vector` containing";
  ln "another `vector`. Therefore, we will need to be able to summarise the elements";
  ln "of different `vector`s. We can use the `boost::mpl::fold`";
  ln "[link metafunction metafunction] to do this:";
  ln "";
  ln "  > #include <boost/mpl/fold.hpp>";
  ln "";
  ln "With this [link metafunction metafunction], we can iterate over a `vector` of";
  ln "parsed numbers and summarise them. We can provide it a";
  ln "[link metafunction metafunction] taking two arguments: the sum we have so far";
  ln "and the next element of the `vector`. This [link metafunction metafunction]";
  ln "will be called for every element of the `vector`.";
  ln "";
  ln "[note";
  ln "Note that this is very similar to the `std::accumulate` algorithm.";
  ln "[@http://boost.org/libs/mpl Boost.MPL] provides `boost::mpl::accumulate` as";
  ln "well, which is a synonym for `boost::mpl::fold`. This tutorial (and Metaparse)";
  ln "uses the name `fold`.";
  ln "]";
  ln "";
  ln "Let's start with a simple case: a `vector` of numbers. For example let's";
  ln "summarise the elements of the following `vector`:";
  ln "";
  ln "  > using vector_of_numbers = \";
  ln "  ...> boost::mpl::vector< \";
  ln "  ...>   boost::mpl::int_<2>, \";
  ln "  ...>   boost::mpl::int_<5>, \";
  ln "  ...>   boost::mpl::int_<6> \";
  ln "  ...> >;";
  ln "";
  ln "[link getting_started_6 copy-paste friendly version]";
  ln "";
  ln "We will write a [link metafunction template metafunction], `sum_vector` for";
  ln "summarising the elements of a `vector` of numbers:";
  ln "";
  ln "  > template <class Vector> \";
  ln "  ...> struct sum_vector : \";
  ln "  ...>    boost::mpl::fold< \";
  ln "  ...>      Vector, \";
  ln "  ...>      boost::mpl::int_<0>, \";
  ln "  ...>      boost::mpl::lambda< \";
  ln "  ...>        boost::mpl::plus<boost::mpl::_1, boost::mpl::_2> \";
  ln "  ...>      >::type \";
  ln "  ...>    > \";
  ln "  ...>  {};";
  ln "";
  ln "[link getting_started_7 copy-paste friendly version]";
  ln "";
  ln "This [link metafunction metafunction] takes the `vector` to summarise the";
  ln "elements of as its argument and uses `boost::mpl::fold` to calculate the sum.";
  ln "`boost::mpl::fold` takes three arguments:";
  ln "";
  ln "* The container to summarise. This is `Vector`.";
  ln "* The starting value for ['the sum we have so far]. Using `0` means that we want";
  ln "  to start the sum from `0`.";
  ln "* The function to call in every iteration while looping over the container. We";
  ln "  are using a";
  ln "  [@http://www.boost.org/libs/mpl/doc/refmanual/lambda-expression.html lambda expression]";
  ln "  in our example, which is the expression wrapped by `boost::mpl::lambda`. This";
  ln "  expression adds its two arguments together using `boost::mpl::plus`. The";
  ln "  lambda expression refers to its arguments by `boost::mpl::_1` and";
  ln "  `boost::mpl::_2`.";
  ln "";
  ln "Let's try this [link metafunction metafunction] out:";
  ln "";
  ln "  > sum_vector<vector_of_numbers>::type";
  ln "  mpl_::integral_c<int, 13>";
  ln "";
  ln "It works as expected. Here is a diagram showing how it works:";
  ln "";
  ln "[$images/metaparse/tutorial_diag2.png [width 50%]]";
  ln "";
  ln "As the diagram shows, `boost::mpl::fold` evaluates the lambda expression for";
  ln "each element of the `vector` and passes the result of the previous evaluation to";
  ln "the next lambda expression invocation.";
  ln "";
  ln "We have a [link metafunction metafunction] that can summarise a `vector` of";
  ln "numbers. The result of parsing the `+ <number>` elements is a `vector` of";
  ln "`vector`s. As a recap, here is `temp_result`:";
  ln "";
  ln "  boost_::mpl::vector<";
  ln "    // The result of int_token";
  ln "    mpl_::integral_c<int, 1>,";
  ln "  ";
  ln "    // The result of repeated< sequence<plus_token, int_token> >";
  ln "    boost_::mpl::vector<";
  ln "      boost_::mpl::vector<mpl_::char_<'+'>, mpl_::integral_c<int, 2> >,";
  ln "      boost_::mpl::vector<mpl_::char_<'+'>, mpl_::integral_c<int, 3> >,";
  ln "      boost_::mpl::vector<mpl_::char_<'+'>, mpl_::integral_c<int, 4> >";
  ln "    >";
  ln "  >";
  ln "";
  ln "First let's summarise the result of [link repeated `repeated`]`<...>` using";
  ln "`boost::mpl::fold`. This is a `vector` of `vector`s, but that's fine.";
  ln "`boost::mpl::fold` doesn't care about what the elements of the `vector` are.";
  ln "They can be numbers, `vector`s or something else as well. The function we use to";
  ln "add two numbers together (which was a lambda expression in our previous example)";
  ln "gets these elements as its argument and has to deal with them. So to summarise";
  ln "the elements of the `vector`s we get as the result of parsing with";
  ln "[link repeated `repeated`]`<...>`, we need to write a";
  ln "[link metafunction metafunction] that can deal with these elements. One such";
  ln "element is `boost_::mpl::vector<mpl_::char<'+'>, mpl_::integral_c<int, 2>>`.";
  ln "Here is a [link metafunction metafunction] that can be used in a";
  ln "`boost::mpl::fold`:";
  ln "";
  ln "  > template <class Sum, class Item> \";
  ln "  ...>   struct sum_items : \";
  ln "  ...>     boost::mpl::plus< \";
  ln "  ...>       Sum, \";
  ln "  ...>       typename boost::mpl::at_c<Item, 1>::type \";
  ln "  ...>     > \";
  ln "  ...> {};";
  ln "";
  ln "[link getting_started_8 copy-paste friendly version]";
  ln "";
  ln "This function takes two arguments:";
  ln "";
  ln "* `Sum`, which is a number. This is the summary of the already processed";
  ln "  elements.";
  ln "* `Item`, the next item of the `vector`. These items are `vector`s of size two:";
  ln "  the result of parsing the `+` symbol and the number.";
  ln "";
  ln "The [link metafunction metafunction] adds the sum we have so far and the next";
  ln "number together using the `boost::mpl::plus` [link metafunction metafunction].";
  ln "To get the next number out of `Item`, it uses `boost::mpl::at_c`. Let's try";
  ln "`sum_items` out:";
  ln "";
  ln "  > sum_items< \";
  ln "  ...>   mpl_::integral_c<int, 1>, \";
  ln "  ...>   boost::mpl::vector<mpl_::char_<'+'>, mpl_::integral_c<int, 2>> \";
  ln "  ...> >::type";
  ln "  mpl_::integral_c<int, 3>";
  ln "";
  ln "[link getting_started_9 copy-paste friendly version]";
  ln "";
  ln "We have called `sum_items` with values from `temp_result` and saw that it works";
  ln "as expected: it added the partial sum (`mpl_::integral_c<int, 1>`) to the next";
  ln "number (`mpl_::integral_c<int, 2>`).";
  ln "";
  ln "`boost::mpl::fold` can summarise the list we get as the result of parsing the";
  ln "`+ <number>` elements of the input, so we need to extract this list from";
  ln "`temp_result` first:";
  ln "";
  ln "  > boost::mpl::at_c<temp_result, 1>::type";
  ln "";
  ln "Here is the formatted version of the result:";
  ln "";
  ln "  boost_::mpl::vector<";
  ln "    boost_::mpl::vector<mpl_::char_<'+'>, mpl_::integral_c<int, 2>>,";
  ln "    boost_::mpl::vector<mpl_::char_<'+'>, mpl_::integral_c<int, 3>>,";
  ln "    boost_::mpl::vector<mpl_::char_<'+'>, mpl_::integral_c<int, 4>>";
  ln "  >";
  ln "";
  ln "This is the second element of the `temp_result` vector (the first one is the";
  ln "value of the first `<number>` element). Let's try fold out for this:";
  ln "";
  ln "  > \";
  ln "  ...> boost::mpl::fold< \";
  ln "  ...>   boost::mpl::at_c<temp_result, 1>::type, /* The vector to summarise */ \";
  ln "  ...>   boost::mpl::int_<0>, /* The value to start the sum from */ \";
  ln "  ...>   boost::mpl::quote2<sum_items> /* The function to call in each iteration */ \";
  ln "  ...> >::type";
  ln "  mpl_::integral_c<int, 9>";
  ln "";
  ln "[link getting_started_10 copy-paste friendly version]";
  ln "";
  ln "[note";
  ln "We are using `sum_items` as the function to call in each iteration. We are";
  ln "passing a [link metafunction metafunction] (`sum_items`) to another";
  ln "[link metafunction metafunction] (`boost::mpl::fold`) as an argument. To be";
  ln "able to do this, we need to turn it into a";
  ln "[link metafunction_class template metafunction class] using";
  ln "`boost::mpl::quote2` (`2` means that it takes two arguments).";
  ln "]";
  ln "";
  ln "As we have seen, the result of this is the sum of the elements, which was `9` in";
  ln "our case. Here is a diagram showing how `boost::mpl::fold` works:";
  ln "";
  ln "[$images/metaparse/tutorial_diag3.png [width 50%]]";
  ln "";
  ln "It starts with the value `boost::mpl::int_<0>` and adds the elements of the";
  ln "`boost_::mpl::vector` containing the parsing results one by one. The diagram";
  ln "shows how the subresults are calculated and then used for further calculations.";
  ln "";
  ln "[endsect]";
  ln "";
  ln "[section 5.2.2. Evaluating the expression using `boost::mpl::fold`]";
  ln "[note Note that you can find everything that has been included and defined so far [link before_5_2_2 here].]";
  ln "";
  ln "Let's use `sum_items` with `boost::mpl::fold` to build the parser that";
  ln "summarises the values coming from the `+ <number>` elements. We can extend the";
  ln "parser we were using in `exp_parser7` by wrapping the";
  ln "[link repeated `repeated`]`<...>` part with [link transform `transform`], which";
  ln "transforms the result of [link repeated `repeated`]`<...>` with the folding";
  ln "expression we have just created:";
  ln "";
  ln "  > using exp_parser8 = \";
  ln "  ...> build_parser< \";
  ln "  ...>   sequence< \";
  ln "  ...>     int_token, /* parse the first <number> */ \";
  ln "  ...>     transform< \";
  ln "  ...>       repeated<sequence<plus_token, int_token>>, /* parse the ""+ <number>"" elements */ \";
  ln "  ...> \";
  ln "  ...>       /* lambda expression summarising the ""+ <number>"" elements using fold */ \";
  ln "  ...>       boost::mpl::lambda< \";
  ln "  ...>         /* The folding expression we have just created */ \";
  ln "  ...>         boost::mpl::fold< \";
  ln "  ...>           boost::mpl::_1, /* the argument of the lambda expression, the result */ \";
  ln "  ...>                           /* of the repeated<...> parser */ \";
  ln "  ...>           boost::mpl::int_<0>, \";
  ln "  ...>           boost::mpl::quote2<sum_items> \";
  ln "  ...>         > \";
  ln "  ...>       >::type \";
  ln "  ...>     > \";
  ln "  ...>   > \";
  ln "  ...> >;";
  ln "";
  ln "[link getting_started_11 copy-paste friendly version]";
  ln "";
  ln "It uses [link transform `transform`] to turn the result of the previous version";
  ln "of our parser into one that summarises the `+ <number>` elements. Let's try it";
  ln "out:";
  ln "";
  ln "  > exp_parser8::apply<BOOST_METAPARSE_STRING(""1 + 2 + 3 + 4"")>::type";
  ln "  boost_::mpl::vector<mpl_::integral_c<int, 1>, mpl_::integral_c<int, 9> >";
  ln "";
  ln "This returns a pair of numbers as the result of parsing: the first number and";
  ln "the sum of the rest. To get the value of the entire expression we need to add";
  ln "these two numbers together. We can extend our parser to do this final addition";
  ln "as well:";
  ln "";
  ln "  > using exp_parser9 = \";
  ln "  ...> build_parser< \";
  ln "  ...>   transform< \";
  ln "  ...>     /* What we had so far */ \";
  ln "  ...>     sequence< \";
  ln "  ...>       int_token, \";
  ln "  ...>       transform< \";
  ln "  ...>         repeated<sequence<plus_token, int_token>>, \";
  ln "  ...>         boost::mpl::lambda< \";
  ln "  ...>           boost::mpl::fold< \";
  ln "  ...>             boost::mpl::_1, \";
  ln "  ...>             boost::mpl::int_<0>, \";
  ln "  ...>             boost::mpl::quote2<sum_items> \";
  ln "  ...>           > \";
  ln "  ...>         >::type \";
  ln "  ...>       > \";
  ln "  ...>     >, \";
  ln "  ...>     boost::mpl::quote1<sum_vector> /* summarise the vector of numbers */ \";
  ln "  ...>   > \";
  ln "  ...> >;";
  ln "";
  ln "[link getting_started_12 copy-paste friendly version]";
  ln "";
  ln "`exp_parser9` wraps the parser we had so far (which gives us the two element";
  ln "`vector` as the result) with [link transform `transform`] to add the elements";
  ln "of that two element `vector` together. Since that two element `vector` is a";
  ln "`vector` of numbers, we can (re)use the `sum_vector`";
  ln "[link metafunction metafunction] for this. Let's try it out:";
  ln "";
  ln "  > exp_parser9::apply<BOOST_METAPARSE_STRING(""1 + 2 + 3 + 4"")>::type";
  ln "  mpl_::integral_c<int, 10>";
  ln "";
  ln "It gives us the correct result, but it is very inefficient. Let's see why:";
  ln "";
  ln "[$images/metaparse/tutorial_diag4.png [width 90%]]";
  ln "";
  ln "There are two loops in this process:";
  ln "";
  ln "* first [link repeated `repeated`] loops over the input to parse all of the";
  ln "  `+ <number>` elements. It builds a `vector` during this. (`Loop 1` on the";
  ln "  diagram)";
  ln "* then `boost::mpl::fold` loops over this `vector` to summarise the elements.";
  ln "  (`Loop 2` on the diagram)";
  ln "";
  ln "[note";
  ln "Note that we have been talking about ['loop]s while there is no such thing as";
  ln "a loop in template metaprogramming. Loops can be implemented using";
  ln "['recursion]: every recursive call is one iteration of the loop. The loop is";
  ln "stopped at the bottom of the recursive chain.";
  ln "]";
  ln "";
  ln "[endsect]";
  ln "";
  ln "[section 5.2.3. Using a folding parser combinator]";
  ln "[note Note that you can find everything that has been included and defined so far [link before_5_2_3 here].]";
  ln "";
  ln "It would be nice, if the two loops could be merged together and the temporary";
  ln "`vector` wouldn't have to be built in the middle (don't forget: there is no";
  ln "such thing as a ['garbage collector] for template metaprogramming. Once you";
  ln "instantiate a template, it will be available until the end of ... the";
  ln "compilation).";
  ln "";
  ln "Metaparse provides the [link foldl `foldl`] parser combinator:";
  ln "";
  ln "  > #include <boost/metaparse/foldl.hpp>";
  ln "";
  ln "It is almost the same as `boost::mpl::fold`, but instead of taking the `vector`";
  ln "as its first argument, which was coming from the repeated application of a";
  ln "parser ([link sequence `sequence`]`<plus_token, int_token>`) on the input, it";
  ln "takes the parser itself. [link foldl `foldl`] parses the input and calculates";
  ln "the summary on the fly. Here is how we can write our parser using it:";
  ln "";
  ln "  > using exp_parser10 = \";
  ln "  ...> build_parser< \";
  ln "  ...>   transform< \";
  ln "  ...>     sequence< \";
  ln "  ...>       int_token, \";
  ln "  ...>       foldl< \";
  ln "  ...>         sequence<plus_token, int_token>, \";
  ln "  ...>         boost::mpl::int_<0>, \";
  ln "  ...>         boost::mpl::quote2<sum_items> \";
  ln "  ...>       > \";
  ln "  ...>     >, \";
  ln "  ...>     boost::mpl::quote1<sum_vector>> \";
  ln "  ...> >;";
  ln "";
  ln "[link getting_started_13 copy-paste friendly version]";
  ln "";
  ln "Here are the formatted versions of `exp_parser9` and `exp_parser10`";
  ln "side-by-side:";
  ln "";
  ln "  //            exp_parser9                                       exp_parser10";
  ln "  ";
  ln "  build_parser<                                       build_parser<";
  ln "    transform<                                          transform<";
  ln "      sequence<                                           sequence<";
  ln "        int_token,                                          int_token,";
  ln "  ";
  ln "  ";
  ln "        transform<                                          foldl<";
  ln "          repeated<sequence<plus_token, int_token>>,          sequence<plus_token, int_token>,";
  ln "          boost::mpl::lambda<";
  ln "            boost::mpl::fold<";
  ln "              boost::mpl::_1,";
  ln "              boost::mpl::int_<0>,                            boost::mpl::int_<0>,";
  ln "              boost::mpl::quote2<sum_items>                   boost::mpl::quote2<sum_items>";
  ln "            >";
  ln "          >::type";
  ln "        >                                                   >";
  ln "  ";
  ln "  ";
  ln "      >,                                                  >,";
  ln "      boost::mpl::quote1<sum_vector>                      boost::mpl::quote1<sum_vector>";
  ln "    >                                                   >";
  ln "  >                                                   >";
  ln "";
  ln "[link getting_started_14 copy-paste friendly version]";
  ln "";
  ln "In `exp_parser10` the ""_[link repeated `repeated`] and then";
  ln "[link transform `transform`] with `boost::mpl::fold`_"" part (the middle block of";
  ln "`exp_parser9`) has been replaced by one [link foldl `foldl`] parser that does";
  ln "the same thing but without building a `vector` in the middle. The same starting";
  ln "value (`boost::mpl::int_<0>`) and callback function (`sum_items`) could be used.";
  ln "";
  ln "Here is a diagram showing how `exp_parser10` works:";
  ln "";
  ln "[$images/metaparse/tutorial_diag5.png [width 90%]]";
  ln "";
  ln "In this case, the results of the";
  ln "[link sequence `sequence`]`<plus_token, int_token>` parsers are passed directly";
  ln "to a folding algorithm without an intermediate `vector`. Here is a diagram";
  ln "showing `exp_parser9` and `exp_parser10` side-by-side to make it easier to see";
  ln "the difference:";
  ln "";
  ln "[$images/metaparse/tutorial_diag6.png [width 90%]]";
  ln "";
  ln "[endsect]";
  ln "";
  ln "[section 5.2.4. Processing the initial element with the folding parser combinator]";
  ln "[note Note that you can find everything that has been included and defined so far [link before_5_2_4 here].]";
  ln "";
  ln "This solution can still be improved. The [link foldl `foldl`] summarising the";
  ln "`+ <number>` elements starts from `0` and once this is done, we add the value of";
  ln "the first `<number>` of the input to it in the first iteration. It would be more";
  ln "straightforward if [link foldl `foldl`] could use the value of the first";
  ln "`<number>` as the initial value of the ""['sum we have so far]"". Metaparse";
  ln "provides [link foldl_start_with_parser `foldl_start_with_parser`] for this:";
  ln "";
  ln "  > #include <boost/metaparse/foldl_start_with_parser.hpp>";
  ln "";
  ln "[link foldl_start_with_parser `foldl_start_with_parser`] is almost the same as";
  ln "[link foldl `foldl`]. The difference is that instead of taking a starting";
  ln "['value] for the sum it takes a ['parser]. First it parses the input with this";
  ln "parser and uses the value it returns as the starting value. Here is how we can";
  ln "implement our parser using it:";
  ln "";
  ln "  > using exp_parser11 = \";
  ln "  ...> build_parser< \";
  ln "  ...>   foldl_start_with_parser< \";
  ln "  ...>     sequence<plus_token, int_token>, /* apply this parser repeatedly */ \";
  ln "  ...>     int_token, /* use this parser to get the initial value */ \";
  ln "  ...>     boost::mpl::quote2<sum_items> /* use this function to add a new value to the summary */ \";
  ln "  ...>   > \";
  ln "  ...> >;";
  ln "";
  ln "[link getting_started_15 copy-paste friendly version]";
  ln "";
  ln "This version of `exp_parser` uses";
  ln "[link foldl_start_with_parser `foldl_start_with_parser`]. This implementation is";
  ln "more compact than the earlier versions. There is no [link sequence `sequence`]";
  ln "element in this: the first `<number>` is parsed by `int_token` and its value is";
  ln "used as the initial value for the summary. Let's try it out:";
  ln "";
  ln "  > exp_parser11::apply<BOOST_METAPARSE_STRING(""1 + 2 + 3 + 4"")>::type";
  ln "  mpl_::integral_c<int, 10>";
  ln "";
  ln "It returns the same result as the earlier version but works differently. Here is";
  ln "a diagram showing how this implementation works:";
  ln "";
  ln "[$images/metaparse/tutorial_diag7.png [width 90%]]";
  ln "";
  ln "[endsect]";
  ln "";
  ln "[endsect]";
  ln "";
  ln "[endsect]";
  ln "";
  ln "[section 6. Adding support for other operators]";
  ln "[note Note that you can find everything that has been included and defined so far [link before_6 here].]";
  ln "";
  ln "Our parsers now support expressions adding numbers together. In this section we";
  ln "will add support for the `-` operator, so expressions like `1 + 2 - 3` can be";
  ln "evaluated.";
  ln "";
  ln "[section 6.1. Parsing expressions containing `-` operators]";
  ln "[note Note that you can find everything that has been included and defined so far [link before_6_1 here].]";
  ln "";
  ln "Currently we use the `plus_token` for parsing ""the"" operator, which has to be";
  ln "`+`. We can define a new token for parsing the `-` symbol:";
  ln "";
  ln "  > using minus_token = token<lit_c<'-'>>;";
  ln "";
  ln "We need to build a parser that accepts either a `+` or a `-` symbol. This can be";
  ln "implemented using [link one_of `one_of`]:";
  ln "";
  ln "  > #include <boost/metaparse/one_of.hpp>";
  ln "";
  ln "[link one_of `one_of`]`<plus_token, minus_token>` is a parser which accepts";
  ln "either a `+` (using `plus_token`) or a `-` (using `minus_token`) symbol. The";
  ln "result of parsing is the result of the parser that succeeded.";
  ln "";
  ln "[note";
  ln "You can give any parser to [link one_of `one_of`], therefore it is possible";
  ln "that more than one of them can parse the input. In those cases the order";
  ln "matters: [link one_of `one_of`] tries parsing the input with the parsers from";
  ln "left to right and the first one that succeeds, wins.";
  ln "]";
  ln "";
  ln "Using this, we can make our parser accept subtractions as well:";
  ln "";
  ln "  > using exp_parser12 = \";
  ln "  ...> build_parser< \";
  ln "  ...>   foldl_start_with_parser< \";
  ln "  ...>     sequence<one_of<plus_token, minus_token>, int_token>, \";
  ln "  ...>     int_token, \";
  ln "  ...>     boost::mpl::quote2<sum_items> \";
  ln "  ...>   > \";
  ln "  ...> >;";
  ln "";
  ln "[link getting_started_16 copy-paste friendly version]";
  ln "";
  ln "It uses [link one_of `one_of`]`<plus_token, minus_token>` as the separator for";
  ln "the numbers. Let's try it out:";
  ln "";
  ln "  > exp_parser12::apply<BOOST_METAPARSE_STRING(""1 + 2 - 3"")>::type";
  ln "  mpl_::integral_c<int, 6>";
  ln "";
  ln "The result is not correct. The reason for this is that `sum_items`, the function";
  ln "we summarise with ignores which operator was used and assumes that it is always";
  ln "`+`.";
  ln "";
  ln "[endsect]";
  ln "";
  ln "[section 6.2. Evaluating expressions containing `-` operators]";
  ln "[note Note that you can find everything that has been included and defined so far [link before_6_2 here].]";
  ln "";
  ln "To fix the evaluation of expressions containing subtractions, we need to fix";
  ln "the function we use for summarising. We need to write a version that takes the";
  ln "operator being used into account.";
  ln "";
  ln "First of all we will need the `boost::mpl::minus`";
  ln "[link metafunction metafunction] for implementing subtraction:";
  ln "";
  ln "  > #include <boost/mpl/minus.hpp>";
  ln "";
  ln "Let's write a helper metafunction that takes three arguments: the left operand,";
  ln "the operator and the right operand:";
  ln "";
  ln "  > template <class L, char Op, class R> struct eval_binary_op;";
  ln "  > template <class L, class R> struct eval_binary_op<L, '+', R> : boost::mpl::plus<L, R>::type {};";
  ln "  > template <class L, class R> struct eval_binary_op<L, '-', R> : boost::mpl::minus<L, R>::type {};";
  ln "";
  ln "[link getting_started_17 copy-paste friendly version]";
  ln "";
  ln "The first command declares the `eval_binary_op` metafunction. The first and";
  ln "third arguments are the left and right operands and the second argument is the";
  ln "operator.";
  ln "";
  ln "[note";
  ln "Note that it does not satisfy the expectations of a";
  ln "[link metafunction template metafunction] since it takes the operator as a";
  ln "`char` and not as a `class` (or `typename`) argument. For simplicity, we will";
  ln "still call it a metafunction.";
  ln "]";
  ln "";
  ln "The second and third commands define the operation for the cases when the";
  ln "operator is `+` and `-`. When the `eval_binary_op` metafunction is called,";
  ln "the C++ compiler chooses one of the definitions based on the operator. If you";
  ln "have functional programming experience this approach (pattern matching) might be";
  ln "familiar to you. Let's try `eval_binary_op` out:";
  ln "";
  ln "  > eval_binary_op<boost::mpl::int_<11>, '+', boost::mpl::int_<2>>::type";
  ln "  mpl_::integral_c<int, 13>";
  ln "  > eval_binary_op<boost::mpl::int_<13>, '-', boost::mpl::int_<2>>::type";
  ln "  mpl_::integral_c<int, 11>";
  ln "";
  ln "[link getting_started_18 copy-paste friendly version]";
  ln "";
  ln "You might also try to use it with an operator it does not expect (yet). For";
  ln "example `'*'`. You will see the C++ compiler complaining about that the";
  ln "requested version of the `eval_binary_op` template has not been defined. This";
  ln "solution can be extended and support for the `'*'` operator can always be added";
  ln "later.";
  ln "";
  ln "Let's write the [link metafunction metafunction] we can use from the folding";
  ln "parser to evaluate the expressions using `+` and `-` operators. This takes two";
  ln "arguments:";
  ln "";
  ln "* The partial result we have evaluated so far. (This used to be the summary we";
  ln "  have evaluated so far, but we are making it a more general evaluation now).";
  ln "  This is the left operand, a number.";
  ln "* The result of parsing `(+|-) <number>`. This a `vector` containing two";
  ln "  elements: a character representing the operator (`+` or `-`) and the value of";
  ln "  the `<number>`. The number is the right operand.";
  ln "";
  ln "Let's write the [link metafunction metafunction] `binary_op` that takes these";
  ln "arguments and calls `eval_binary_op`:";
  ln "";
  ln "  > template <class S, class Item> \";
  ln "  ...> struct binary_op : \";
  ln "  ...>   eval_binary_op< \";
  ln "  ...>     S, \";
  ln "  ...>     boost::mpl::at_c<Item, 0>::type::value, \";
  ln "  ...>     typename boost::mpl::at_c<Item, 1>::type \";
  ln "  ...>   > \";
  ln "  ...>   {};";
  ln "";
  ln "[link getting_started_19 copy-paste friendly version]";
  ln "";
  ln "This [link metafunction metafunction] takes the operator (the first element)";
  ln "and the right operand (the second element) from `Item`. The operator is a class";
  ln "representing a character, such as `mpl_::char_<'+'>`. To get the character value";
  ln "out of it, one has to access its `::value`. For example `mpl_::char<'+'>::value`";
  ln "is `'+'`. Since `eval_binary_op` takes this character value as its second";
  ln "argument, we had to pass `boost::mpl::at_c<Item, 0>::type::value` to it. Let's";
  ln "try it out:";
  ln "";
  ln "  > binary_op<boost::mpl::int_<11>, boost::mpl::vector<boost::mpl::char_<'+'>, boost::mpl::int_<2>>>::type";
  ln "  mpl_::integral_c<int, 13>";
  ln "";
  ln "We passed it a number (`11`) and a `vector` of a character (`+`) and another";
  ln "number (`2`). It added the two numbers as expected. Let's use this function as";
  ln "the third argument of [link foldl_start_with_parser `foldl_start_with_parser`]:";
  ln "";
  ln "  > using exp_parser13 = \";
  ln "  ...> build_parser< \";
  ln "  ...>   foldl_start_with_parser< \";
  ln "  ...>     sequence<one_of<plus_token, minus_token>, int_token>, \";
  ln "  ...>     int_token, \";
  ln "  ...>     boost::mpl::quote2<binary_op> \";
  ln "  ...>   > \";
  ln "  ...> >;";
  ln "";
  ln "[link getting_started_20 copy-paste friendly version]";
  ln "";
  ln "It uses `binary_op` instead of `sum_items`. Let's try it out:";
  ln "";
  ln "  > exp_parser13::apply<BOOST_METAPARSE_STRING(""1 + 2 - 3"")>::type";
  ln "  mpl_::integral_c<int, 0>";
  ln "";
  ln "It returns the correct result.";
  ln "";
  ln "[endsect]";
  ln "";
  ln "[endsect]";
  ln "";
  ln "[section 7. Dealing with precedence]";
  ln "[note Note that you can find everything that has been included and defined so far [link before_7 here].]";
  ln "";
  ln "We support addition and subtraction. Let's support multiplication as well.";
  ln "";
  ln "[section 7.1. Adding support for the `*` operator]";
  ln "[note Note that you can find everything that has been included and defined so far [link before_7_1 here].]";
  ln "";
  ln "We can extend the solution we have built for addition and subtraction. To do";
  ln "that, we need to add support for multiplication to `eval_binary_op`:";
  ln "";
  ln "  > #include <boost/mpl/times.hpp>";
  ln "  > template <class L, class R> struct eval_binary_op<L, '*', R> : boost::mpl::times<L, R>::type {};";
  ln "";
  ln "[link getting_started_21 copy-paste friendly version]";
  ln "";
  ln "We had to include `<boost/mpl/times.hpp>` to get the `boost::mpl::times`";
  ln "[link metafunction metafunction] and then we could extend `eval_binary_op` to";
  ln "support the `*` operator as well. We can try it out:";
  ln "";
  ln "  > eval_binary_op<boost::mpl::int_<3>, '*', boost::mpl::int_<4>>::type";
  ln "  mpl_::integral_c<int, 12>";
  ln "";
  ln "This works as expected. Let's create a token for parsing the `*` symbol:";
  ln "";
  ln "  > using times_token = token<lit_c<'*'>>;";
  ln "";
  ln "Now we can extend our parser to accept the `*` symbol as an operator:";
  ln "";
  ln "  > using exp_parser14 = \";
  ln "  ...> build_parser< \";
  ln "  ...>   foldl_start_with_parser< \";
  ln "  ...>     sequence<one_of<plus_token, minus_token, times_token>, int_token>, \";
  ln "  ...>     int_token, \";
  ln "  ...>     boost::mpl::quote2<binary_op> \";
  ln "  ...>   > \";
  ln "  ...> >;";
  ln "";
  ln "[link getting_started_22 copy-paste friendly version]";
  ln "";
  ln "This version accepts either a `+`, a `-` or a `*` symbol as the operator. Let's";
  ln "try this out:";
  ln "";
  ln "  > exp_parser14::apply<BOOST_METAPARSE_STRING(""2 * 3"")>::type";
  ln "  mpl_::integral_c<int, 6>";
  ln "";
  ln "This works as expected. Let's try another, slightly more complicated expression:";
  ln "";
  ln "  > exp_parser14::apply<BOOST_METAPARSE_STRING(""1 + 2 * 3"")>::type";
  ln "  mpl_::integral_c<int, 9>";
  ln "";
  ln "This returns a wrong result. The value of this expression should be `7`, not";
  ln "`9`. The problem with this is that our current implementation does not take";
  ln "operator precedence into account. It treats this expression as `(1 + 2) * 3`";
  ln "while we expect it to be `1 + (2 * 3)` since addition has higher precedence than";
  ln "multiplication.";
  ln "";
  ln "[endsect]";
  ln "";
  ln "[section 7.2. Adding support for precedence of operators]";
  ln "[note Note that you can find everything that has been included and defined so far [link before_7_2 here].]";
  ln "";
  ln "Let's make it possible for different operators to have different precedence. To";
  ln "do this, we define a new parser for parsing expressions containing only `*`";
  ln "operators (that is the operator with the lowest precedence):";
  ln "";
  ln "  > using mult_exp1 = foldl_start_with_parser<sequence<times_token, int_token>, int_token, boost::mpl::quote2<binary_op>>;";
  ln "";
  ln "`mult_exp1` can parse expressions containing only `*` operator. For example";
  ln "`3 * 2` or `6 * 7 * 8`. Now we can create a parser supporting only the `+` and";
  ln "`-` operators but instead of separating ['numbers] with these operators we will";
  ln "separate ['expressions containing only `*` operators]. This means that the";
  ln "expression `1 * 2 + 3 * 4` is interpreted as the expressions `1 * 2` and `3 * 4`";
  ln "separated by a `+` operator. A number (eg. `13`) is the special case of an";
  ln "['expression containing only `*` operators].";
  ln "";
  ln "Here is the parser implementing this:";
  ln "";
  ln "  > using exp_parser15 = \";
  ln "  ...> build_parser< \";
  ln "  ...>   foldl_start_with_parser< \";
  ln "  ...>     sequence<one_of<plus_token, minus_token>, mult_exp1>, \";
  ln "  ...>     mult_exp1, \";
  ln "  ...>     boost::mpl::quote2<binary_op> \";
  ln "  ...>   > \";
  ln "  ...> >;";
  ln "";
  ln "[link getting_started_23 copy-paste friendly version]";
  ln "";
  ln "Note that this is almost the same as `exp_parser13`. The only difference is that";
  ln "it uses `mult_exp1` everywhere, where `exp_parser13` was using `int_token`.";
  ln "Let's try it out:";
  ln "";
  ln "  > exp_parser15::apply<BOOST_METAPARSE_STRING(""1 + 2 * 3"")>::type";
  ln "  mpl_::integral_c<int, 7>";
  ln "";
  ln "This takes the precedence rules into account. The following diagram shows how it";
  ln "works:";
  ln "";
  ln "[$images/metaparse/tutorial_diag8.png [width 80%]]";
  ln "";
  ln "Subexpressions using `*` operators only are evaluated (by `mult_exp1`) and";
  ln "treated as single units while interpreting expressions using `+` and `-`";
  ln "operators. Numbers not surrounded by `*` operators are treated also as operators";
  ln "using `*` only (containing no operations but a number).";
  ln "";
  ln "If you need more layers (eg. introducing the `^` operator) you can extend this";
  ln "solution with further layers. The order of the layers determine the precedence";
  ln "of the operators.";
  ln "";
  ln "[endsect]";
  ln "";
  ln "[endsect]";
  ln "";
  ln "[section 8. Dealing with associativity]";
  ln "[note Note that you can find everything that has been included and defined so far [link before_8 here].]";
  ln "";
  ln "Let's add division to our calculator language. Since it has the same precedence";
  ln "as multiplication, it should be added to that layer:";
  ln "";
  ln "  > #include <boost/mpl/divides.hpp>";
  ln "  > template <class L, class R> struct eval_binary_op<L, '/', R> : boost::mpl::divides<L, R>::type {};";
  ln "  > using divides_token = token<lit_c<'/'>>;";
  ln "  > using mult_exp2 = \";
  ln "  ...> foldl_start_with_parser< \";
  ln "  ...>   sequence<one_of<times_token, divides_token>, int_token>, \";
  ln "  ...>   int_token, \";
  ln "  ...>   boost::mpl::quote2<binary_op> \";
  ln "  ...> >;";
  ln "  > using exp_parser16 = \";
  ln "  ...> build_parser< \";
  ln "  ...>   foldl_start_with_parser< \";
  ln "  ...>     sequence<one_of<plus_token, minus_token>, mult_exp2>, \";
  ln "  ...>     mult_exp2, \";
  ln "  ...>     boost::mpl::quote2<binary_op> \";
  ln "  ...>   > \";
  ln "  ...> >;";
  ln "";
  ln "[link getting_started_24 copy-paste friendly version]";
  ln "";
  ln "We have to include `<boost/mpl/divides.hpp>` to get a";
  ln "[link metafunction metafunction] for doing a division. We need to extend the";
  ln "`eval_binary_op` [link metafunction metafunction] to support division as well.";
  ln "We had to introduce a new token, `divides_token` that can parse the `/` symbol.";
  ln "";
  ln "We have extended `mult_exp1` to accept either a `times_token` or a";
  ln "`divides_token` as the operator. This extended parser is called `mult_exp2`.";
  ln "";
  ln "We have written a new parser, `exp_parser16` which is the same as `exp_parser15`";
  ln "but uses `mult_exp2` instead of `mult_exp1`. This can parse expressions using";
  ln "division as well (and this new operator has the right precedence). Let's try it";
  ln "out:";
  ln "";
  ln "  > exp_parser16::apply<BOOST_METAPARSE_STRING(""8 / 4"")>::type";
  ln "  mpl_::integral_c<int, 2>";
  ln "";
  ln "This works as expected. But what should be the value of `8 / 4 / 2`? The answer";
  ln "can be either `1` or `4` depending on the associativity of the division";
  ln "operator. If it is left associative, then this expressions is interpreted as";
  ln "`(8 / 4) / 2` and the result is `1`. If it is right associative, this";
  ln "expression is interpreted as `8 / (4 / 2)` and the result is `4`.";
  ln "";
  ln "Try to guess which result our current implementation gives before trying it";
  ln "out. Once you have verified the current behaviour, continue reading.";
  ln "";
  ln "[section 8.1. Understanding the current implementation]";
  ln "[note Note that you can find everything that has been included and defined so far [link before_8_1 here].]";
  ln "";
  ln "Here is a diagram showing how our current parser processes the expression";
  ln "`8 / 4 / 2`:";
  ln "";
  ln "[$images/metaparse/tutorial_diag8.png [width 70%]]";
  ln "";
  ln "It takes the first number, `8`, divides it by the second one, `4` and then it";
  ln "divides the result with the third one, `2`. This means, that in our current";
  ln "implementation, division is left associative: `8 / 4 / 2` means `(8 / 4) / 2`.";
  ln "";
  ln "Another thing to note is that the initial value is `8` and the list of values";
  ln "[link foldl `foldl`] iterates over is ""`/ 4`"", ""`/ 2`"".";
  ln "";
  ln "[endsect]";
  ln "";
  ln "[section 8.2. Folding in reverse order]";
  ln "[note Note that you can find everything that has been included and defined so far [link before_8_2 here].]";
  ln "";
  ln "[link foldl `foldl`] applies a parser repeatedly and iterates over the parsing";
  ln "results from ['left] to right. (This is where the `l` in the name comes from).";
  ln "Metaparse provides another folding parser combinator, [link foldr `foldr`]. It";
  ln "applies a parser on the input as well but it iterates from ['right] to left over";
  ln "the results.";
  ln "";
  ln "Similarly to [link foldl_start_with_parser `foldl_start_with_parser`], Metaparse";
  ln "provides [link foldr_start_with_parser `foldr_start_with_parser`] as well. A";
  ln "major difference between the two";
  ln "([link foldl_start_with_parser `foldl_start_with_parser`] and";
  ln "[link foldr_start_with_parser `foldr_start_with-parser`]) solutions is that";
  ln "while [link foldl_start_with_parser `foldl_start_with_parser`] treats the";
  ln "['first] number as a special one,";
  ln "[link foldr_start_with_parser `foldr_start_with_parser`] treats the ['last]";
  ln "number as a special one. This might sound strange, but think about it: if you";
  ln "want to summarise the elements from right to left, your starting value should be";
  ln "the last element, not the first one, as the first one is the one you visit last.";
  ln "";
  ln "Due to the above difference";
  ln "[link foldr_start_with_parser `foldr_start_with_parser`] is not a drop-in";
  ln "replacement of [link foldl_start_with_parser `foldl_start_with_parser`]. While";
  ln "the list of values [link foldl `foldl`] was iterating over is ""`8`"", ""`/ 4`"",";
  ln """`/ 2`"", the list of values [link foldr `foldlr`] has to iterate over is ""`2`"",";
  ln """`4 /`"", ""`8 /`"".";
  ln "";
  ln "This means that the function we use to ['""add""] a new value to the already";
  ln "evaluated part of the expression (this has been `binary_op` so far) has to be";
  ln "prepared for taking the next operator and operand in a reverse order (eg. by";
  ln "taking ""`4 /`"" instead of ""`/ 4`""). We write another";
  ln "[link metafunction metafunction] for this purpose:";
  ln "";
  ln "  > template <class S, class Item> \";
  ln "  ...> struct reverse_binary_op : \";
  ln "  ...>   eval_binary_op< \";
  ln "  ...>     typename boost::mpl::at_c<Item, 0>::type, \";
  ln "  ...>     boost::mpl::at_c<Item, 1>::type::value, \";
  ln "  ...>     S \";
  ln "  ...>   > \";
  ln "  ...>   {};";
  ln "";
  ln "[link getting_started_25 copy-paste friendly version]";
  ln "";
  ln "There are multiple differences between `binary_op` and `reverse_binary_op`:";
  ln "";
  ln "* The `Item` argument, which is a `vector` is expected to be";
  ln "  `[operator, operand]` in `binary_op` and `[operand, operator]` in";
  ln "  `reverse_binary_op`.";
  ln "* Both versions use `eval_binary_op` to evaluate the subexpression, but";
  ln "  `binary_op` treats `S`, the value representing the already evaluated part of";
  ln "  the expression as the left operand, while `reverse_binary_op` treats it as the";
  ln "  right operand. This is because in the first case we are going from left to";
  ln "  right while in the second case we are going from right to left.";
  ln "";
  ln "We need to include [link foldr_start_with_parser `foldr_start_with_parser`]:";
  ln "";
  ln "  > #include <boost/metaparse/foldr_start_with_parser.hpp>";
  ln "";
  ln "We can rewrite `mult_exp` using";
  ln "[link foldr_start_with_parser `foldr_start_with_parser`]:";
  ln "";
  ln "  > using mult_exp3 = \";
  ln "  ...> foldr_start_with_parser< \";
  ln "  ...>   sequence<int_token, one_of<times_token, divides_token>>, /* The parser applied repeatedly */ \";
  ln "  ...>   int_token, /* The parser parsing the last number */ \";
  ln "  ...>   boost::mpl::quote2<reverse_binary_op> /* The function called for every result */ \";
  ln "  ...>                                         /* of applying the above parser */ \";
  ln "  ...> >;";
  ln "";
  ln "[link getting_started_26 copy-paste friendly version]";
  ln "";
  ln "It is almost the same as `mult_exp2`, but ...";
  ln "";
  ln "* ... the parser applied repeatedly parses `<number> <operator>` elements";
  ln "  instead of `<operator> <number>` elements (what `mult_exp2` did).";
  ln "* ... this version uses `reverse_binary_op` instead of `binary_op` as the";
  ln "  function that is called for every result of applying the above parser.";
  ln "";
  ln "We can create a new version of `exp_parser` that uses `mult_exp3` instead of";
  ln "`mult_exp2`:";
  ln "";
  ln "  > using exp_parser17 = \";
  ln "  ...> build_parser< \";
  ln "  ...>   foldl_start_with_parser< \";
  ln "  ...>     sequence<one_of<plus_token, minus_token>, mult_exp3>, \";
  ln "  ...>     mult_exp3, \";
  ln "  ...>     boost::mpl::quote2<binary_op> \";
  ln "  ...>   > \";
  ln "  ...> >;";
  ln "";
  ln "[link getting_started_27 copy-paste friendly version]";
  ln "";
  ln "The only difference between `exp_parser17` and the previous version,";
  ln "`exp_parser16` is that it uses the updated version of `mult_exp`. Let's try this";
  ln "parser out:";
  ln "";
  ln "  > exp_parser17::apply<BOOST_METAPARSE_STRING(""8 / 4 / 2"")>::type";
  ln "  mpl_::integral_c<int, 4>";
  ln "";
  ln "This version of the parser gives ['the other] possible result. The one you get";
  ln "when division is right associative, which means that the above expression is";
  ln "evaluated as `8 / (4 / 2)`. Here is a diagram showing how the";
  ln "[link foldr_start_with_parser `foldr_start_with_parser`]-based solution works:";
  ln "";
  ln "[$images/metaparse/tutorial_diag10.png [width 70%]]";
  ln "";
  ln "To make it easier to compare the two solutions, here is a diagram showing the";
  ln "two approaches side-by-side:";
  ln "";
  ln "[$images/metaparse/tutorial_diag11.png [width 100%]]";
  ln "";
  ln "As we have seen, the associativity of the operators can be controlled by";
  ln "choosing between folding solutions. The folding solutions going from left to";
  ln "right implement left associativity, while the solutions going from right to left";
  ln "implement right associativity.";
  ln "";
  ln "[note";
  ln "Note that folding solutions going from left to right is implemented in a more";
  ln "efficient way than folding from right to left. Therefore when both solutions";
  ln "can be used you should prefer folding from left to right.";
  ln "]";
  ln "";
  ln "[endsect]";
  ln "";
  ln "[endsect]";
  ln "";
  ln "[section 9. Dealing with unary operators]";
  ln "[note Note that you can find everything that has been included and defined so far [link before_9 here].]";
  ln "";
  ln "Our calculator language provides no direct support for negative numbers. To get";
  ln "a negative number, we need to do a subtraction. For example to get the number";
  ln "`-13` we need to evaluate the expression `0 - 13`.";
  ln "";
  ln "We will implement `-` as a unary operator. Therefore the expression `-13` won't";
  ln "be a ['negative number]. It will be the unary `-` operator applied on the number";
  ln "`13`.";
  ln "";
  ln "Since `-` is an operator, it might be used multiple times. So the expression";
  ln "`---13` is also valid and gives the same result as `-13`. This means that any";
  ln "number of `-` symbols are valid before a number.";
  ln "";
  ln "Our parser can be extended to support the unary `-` operator by adding a new";
  ln "layer to the list of precedence layers. This should have the lowest precedence,";
  ln "which means that we should use this new layer where we have been using";
  ln "`int_token`. Let's write a new parser:";
  ln "";
  ln "  > #include <boost/mpl/negate.hpp>";
  ln "  > using unary_exp1 = \";
  ln "  ...> foldr_start_with_parser< \";
  ln "  ...>   minus_token, \";
  ln "  ...>   int_token, \";
  ln "  ...>   boost::mpl::lambda<boost::mpl::negate<boost::mpl::_1>>::type \";
  ln "  ...> >;";
  ln "";
  ln "[link getting_started_28 copy-paste friendly version]";
  ln "";
  ln "We had to include `<boost/mpl/negate.hpp>` to get a";
  ln "[link metafunction metafunction] we can negate a value with.";
  ln "";
  ln "`unary_exp1` is implemented with right to left folding: it starts from the";
  ln "number (parsed by `int_token`) and processes the `-` symbols one by one. The";
  ln "function to be called for each `-` symbol is a lambda expression that negates";
  ln "the number. So the number is negated for every `-` symbol.";
  ln "";
  ln "We can implement a new version of `mult_exp` and `exp_parser`. They are the same";
  ln "as `mult_exp2` and `exp_parser16`. The only difference is that they (directly";
  ln "only `exp_parser18`) use `unary_exp1` instead of `int_token`.";
  ln "";
  ln "  > using mult_exp4 = \";
  ln "  ...> foldl_start_with_parser< \";
  ln "  ...>   sequence<one_of<times_token, divides_token>, unary_exp1>, \";
  ln "  ...>   unary_exp1, \";
  ln "  ...>   boost::mpl::quote2<binary_op> \";
  ln "  ...> >;";
  ln "  > using exp_parser18 = \";
  ln "  ...> build_parser< \";
  ln "  ...>   foldl_start_with_parser< \";
  ln "  ...>     sequence<one_of<plus_token, minus_token>, mult_exp4>, \";
  ln "  ...>     mult_exp4, \";
  ln "  ...>     boost::mpl::quote2<binary_op> \";
  ln "  ...>   > \";
  ln "  ...> >;";
  ln "";
  ln "[link getting_started_29 copy-paste friendly version]";
  ln "";
  ln "Let's try these new parsers out:";
  ln "";
  ln "  > exp_parser18::apply<BOOST_METAPARSE_STRING(""---13"")>::type";
  ln "  mpl_::integral_c<int, -13>";
  ln "  > exp_parser18::apply<BOOST_METAPARSE_STRING(""13"")>::type";
  ln "  mpl_::integral_c<int, 13>";
  ln "";
  ln "[link getting_started_30 copy-paste friendly version]";
  ln "";
  ln "It can deal with negative numbers correctly.";
  ln "";
  ln "[endsect]";
  ln "";
  ln "[section 10. Dealing with parens]";
  ln "";
  ln "Our parsers already support the precedence of the different operators. Let's add";
  ln "support for parens as well, so users can override the precedence rules when they";
  ln "need to.";
  ln "";
  ln "We can add a new parser for parsing (and evaluating) expressions in parens.";
  ln "First we introduce tokens for parsing the `(` and `)` symbols:";
  ln "";
  ln "  > using lparen_token = token<lit_c<'('>>;";
  ln "  > using rparen_token = token<lit_c<')'>>;";
  ln "";
  ln "[link getting_started_31 copy-paste friendly version]";
  ln "";
  ln "A paren can contain an expression with any operators in it, so we add a parser";
  ln "for parsing (and evaluating) an expression containing operators of the highest";
  ln "precedence:";
  ln "";
  ln "  > using plus_exp1 = \";
  ln "  ...> foldl_start_with_parser< \";
  ln "  ...>   sequence<one_of<plus_token, minus_token>, mult_exp4>, \";
  ln "  ...>   mult_exp4, \";
  ln "  ...>   boost::mpl::quote2<binary_op> \";
  ln "  ...> >;";
  ln "";
  ln "[link getting_started_32 copy-paste friendly version]";
  ln "";
  ln "This was just a refactoring of our last parser for the calculator language. We";
  ln "can build the parser for our calculator language by using";
  ln "[link build_parser `build_parser`]`<plus_exp1>` now. Let's write a parser for a";
  ln "paren expression:";
  ln "";
  ln "  > using paren_exp1 = sequence<lparen_token, plus_exp1, rparen_token>;";
  ln "";
  ln "This definition parses a left paren, then a complete expression followed by a";
  ln "right paren. The result of parsing a paren expression is a `vector` of three";
  ln "elements: the `(` character, the value of the expression and the `)` character.";
  ln "We only need the value of the expression, which is the middle element. We could";
  ln "wrap the whole thing with a [link transform `transform`] that gets the middle";
  ln "element and throws the rest away, but we don't need to. This is such a common";
  ln "pattern, that Metaparse provides [link middle_of `middle_of`] for this:";
  ln "";
  ln "  > #include <boost/metaparse/middle_of.hpp>";
  ln "  > using paren_exp2 = middle_of<lparen_token, plus_exp1, rparen_token>;";
  ln "";
  ln "[link getting_started_33 copy-paste friendly version]";
  ln "";
  ln "This implementation is almost the same as `paren_exp1`. The difference is that";
  ln "the result of parsing will be the value of the wrapped expression (the result of";
  ln "the `plus_exp1` parser).";
  ln "";
  ln "Let's define a parser for a primary expression which is either a number or an";
  ln "expression in parens:";
  ln "";
  ln "  > using primary_exp1 = one_of<int_token, paren_exp2>;";
  ln "";
  ln "This parser accepts either a number using `int_token` or an expression in parens";
  ln "using `paren_exp1`.";
  ln "";
  ln "Everywhere, where one can write a number (parsed by `int_token`), one can write";
  ln "a complete expression in parens as well. Our current parser implementation";
  ln "parses `int_token`s in `unary_exp`, therefore we need to change that to use";
  ln "`primary_exp` instead of `int_token`.";
  ln "";
  ln "There is a problem here: this makes the definitions of our parsers ['recursive].";
  ln "Think about it:";
  ln "";
  ln "* `plus_exp` uses `mult_exp`";
  ln "* `mult_exp` uses `unary_exp`";
  ln "* `unary_exp` uses `primary_exp`";
  ln "* `primary_exp` uses `paren_exp`";
  ln "* `paren_exp` uses `plus_exp`";
  ln "";
  ln "[note";
  ln "Since we are versioning the different parser implementations in Metashell";
  ln "(`paren_exp1`, `paren_exp2`, etc) you might try to define these recursive";
  ln "parsers and it might seem to work for the first time. In that case, when you";
  ln "later try creating a parser as part of a library (save your Metashell";
  ln "environment to a file or re-implement the important/successful elements) you";
  ln "face this issue.";
  ln "]";
  ln "";
  ln "We have been using type aliases (`typedef` and `using`) for defining the";
  ln "parsers. We can do it as long as their definition is not recursive. We can not";
  ln "refer to a type alias until we have defined it and type aliases can not be";
  ln "forward declared, so we can't find a point in the recursive cycle where we could";
  ln "start defining things.";
  ln "";
  ln "A solution for this is making one of the parsers a new class instead of a type";
  ln "alias. Classes can be forward declared, therefore we can declare the class,";
  ln "implement the rest of the parsers as they can refer to that class and then";
  ln "define the class at the end.";
  ln "";
  ln "Let's make `plus_exp` a class. So as a first step, let's forward declare it:";
  ln "";
  ln "  > struct plus_exp2;";
  ln "";
  ln "Now we can write the rest of the parsers and they can refer to `plus_exp2`:";
  ln "";
  ln "  > using paren_exp3 = middle_of<lparen_token, plus_exp2, rparen_token>;";
  ln "  > using primary_exp2 = one_of<int_token, paren_exp2>;";
  ln "  > using unary_exp2 = \";
  ln "  ...> foldr_start_with_parser< \";
  ln "  ...>   minus_token, \";
  ln "  ...>   primary_exp2, \";
  ln "  ...>   boost::mpl::lambda<boost::mpl::negate<boost::mpl::_1>>::type \";
  ln "  ...> >;";
  ln "  > using mult_exp5 = \";
  ln "  ...> foldl_start_with_parser< \";
  ln "  ...>   sequence<one_of<times_token, divides_token>, unary_exp2>, \";
  ln "  ...>   unary_exp2, \";
  ln "  ...>   boost::mpl::quote2<binary_op> \";
  ln "  ...> >;";
  ln "";
  ln "[link getting_started_34 copy-paste friendly version]";
  ln "";
  ln "There is nothing new in the definition of these parsers. They build up the";
  ln "hierarchy we have worked out in the earlier sections of this tutorial. The only";
  ln "element missing is `plus_exp2`:";
  ln "";
  ln "  > struct plus_exp2 : \";
  ln "  ...> foldl_start_with_parser< \";
  ln "  ...>   sequence<one_of<plus_token, minus_token>, mult_exp5>, \";
  ln "  ...>   mult_exp5, \";
  ln "  ...>   boost::mpl::quote2<binary_op> \";
  ln "  ...> > {};";
  ln "";
  ln "[link getting_started_35 copy-paste friendly version]";
  ln "";
  ln "This definition makes use of inheritance instead of type aliasing. Now we can";
  ln "write the parser for the calculator that supports parens as well:";
  ln "";
  ln "  > using exp_parser19 = build_parser<plus_exp2>;";
  ln "";
  ln "Let's try this parser out:";
  ln "";
  ln "  > exp_parser19::apply<BOOST_METAPARSE_STRING(""(1 + 2) * 3"")>::type";
  ln "  mpl_::integral_c<int, 9>";
  ln "";
  ln "Our parser accepts and can deal with parens in the expressions.";
  ln "";
  ln "[endsect]";
  ln "";
  ln "[#dealing_with_invalid_input]";
  ln "[section 11. Dealing with invalid input]";
  ln "";
  ln "So far we have been focusing on parsing valid user input. However, users of our";
  ln "parsers will make mistakes and we should help them finding the source of the";
  ln "problem. And we should make this process not too painful.";
  ln "";
  ln "The major difficulty in error reporting is that we have no direct way of showing";
  ln "error messages to the user. The parsers are template metaprograms. When they";
  ln "detect that the input is invalid, they can make the compilation fail and the";
  ln "compiler (running the metaprogram) display an error message. What we can do is";
  ln "making those error messages short and contain all information about the parsing";
  ln "error. We should make it easy to find this information in whatever the compiler";
  ln "displays.";
  ln "";
  ln "So let's try to parse some invalid expression and let's see what happens:";
  ln "";
  ln "  > exp_parser19::apply<BOOST_METAPARSE_STRING(""hello"")>::type";
  ln "  << compilation error >>";
  ln "";
  ln "You will get a lot (if you have seen error messages coming from template";
  ln "metaprograms you know: this is ['not] a lot.) of error messages. Take a closer";
  ln "look. It contains this:";
  ln "";
  ln "  x__________________PARSING_FAILED__________________x<";
  ln "    1, 1,";
  ln "    boost::metaparse::v1::error::literal_expected<'('>";
  ln "  >";
  ln "";
  ln "You can see a formatted version above. There are no line breaks in the real";
  ln "output. This is relatively easy to spot (thanks to the `____________` part) and";
  ln "contains answers to the main questions one has when parsing fails:";
  ln "";
  ln "* ['where] is the error? It is column `1` in line `1` (inside";
  ln "  [link BOOST_METAPARSE_STRING `BOOST_METAPARSE_STRING`]). This is the `1, 1`";
  ln "  part.";
  ln "* ['what] is the problem? `literal_expected<'('>`. This is a bit misleading, as";
  ln "  it contains only a part of the problem. An open paren is not the only";
  ln "  acceptable token here, a number would also be fine. This misleading error";
  ln "  message is ['our] fault: ['we] (the parser authors) need to make the parsing";
  ln "  errors more descriptive.";
  ln "";
  ln "[section 11.1. Improving the error messages]";
  ln "";
  ln "So how can we improve the error messages? Let's look at what went wrong in the";
  ln "previous case:";
  ln "";
  ln "* The input was `hello`.";
  ln "* `plus_exp2` tried to parse it.";
  ln "* `plus_exp2` tried to parse it using `mult_exp5` (assuming that this is the";
  ln "  initial `mult_exp` in the list of `+` / `-` separated `mult_exp`s).";
  ln "* so `mult_exp5` tried to parse it.";
  ln "* `mult_exp5` tried to parse it using `unary_exp2` (assuming that this is the";
  ln "  initial `unary_exp` in the list of `*` / `/` separated `unary_exp`s).";
  ln "* so `unary_exp2` tried to parse it.";
  ln "* `unary_exp2` parsed all of the `-` symbols using `minus_token`. There were";
  ln "  none of them (the input started with an `h` character).";
  ln "* so `unary_exp2` tried to parse it using `primary_exp2`.";
  ln "* `primary_exp2` is: [link one_of `one_of`]`<int_token, paren_exp2>`. It tried";
  ln "  parsing the input with `int_token` (which failed) and then with `paren_exp2`";
  ln "  (which failed as well). So [link one_of `one_of`] could not parse the input";
  ln "  with any of the choices and therefore it failed as well. In such situations";
  ln "  `one_of` checks which parser made the most progress (consumed the most";
  ln "  characters of the input) before failing and assumes, that that is the parser";
  ln "  the user intended to use, thus it returns the error message coming from that";
  ln "  parser. In this example none of the parsers could make any progress, in which";
  ln "  case `one_of` returns the error coming from the last parser in the list. This";
  ln "  was `paren_exp2`, and it expects the expression to start with an open paren.";
  ln "  This is where the error message came from. The rest of the layers did not";
  ln "  change or improve this error message so this was the error message displayed";
  ln "  to the user.";
  ln "";
  ln "We, the parser authors know: we expect a primary expression there. When";
  ln "[link one_of `one_of`] fails, it means that none was found.";
  ln "";
  ln "[endsect]";
  ln "";
  ln "[section 11.2. Defining custom errors]";
  ln "";
  ln "To be able to return custom error messages (like `missing_primary_expression`)";
  ln "to the user, we need to define those error messages first. The error messages";
  ln "are represented by classes with some requirements:";
  ln "";
  ln "* It should have a static method called `get_value()` returning a `std::string`";
  ln "  containing the description of the error.";
  ln "* It should be a [link metaprogramming_value template metaprogramming value].";
  ln "";
  ln "These classes are called [link parsing_error_message parsing error message]s.";
  ln "To make it easy to implement such classes and to make it difficult (if not";
  ln "impossible) to forget to fulfill a requirement, Metaparse provides a macro for";
  ln "defining these classes. To get this macro, include the following header:";
  ln "";
  ln "  > #include <boost/metaparse/define_error.hpp>";
  ln "";
  ln "Let's define the [link parsing_error_message parsing error message]:";
  ln "";
  ln "  > BOOST_METAPARSE_DEFINE_ERROR(missing_primary_expression, ""Missing primary expression"");";
  ln "";
  ln "This defines a class called `missing_primary_expression` representing this error";
  ln "message. What we need to do is making our parser return this error message when";
  ln "[link one_of `one_of`] fails.";
  ln "";
  ln "Let's define `plus_exp` and `paren_exp` first. Their definition does not change:";
  ln "";
  ln "  > struct plus_exp3;";
  ln "  > using paren_exp4 = middle_of<lparen_token, plus_exp3, rparen_token>;";
  ln "";
  ln "[link getting_started_36 copy-paste friendly version]";
  ln "";
  ln "When the input contains no number (parsed by `int_token`) and no paren";
  ln "expression (parsed by `paren_exp4`), we should return the";
  ln "`missing_primary_expression` error message. We can do it by adding a third";
  ln "parser to `one_of<int_token, paren_exp4, ...>` which always fails with this";
  ln "error message. Metaparse provides [link fail `fail`] for this:";
  ln "";
  ln "  > #include <boost/metaparse/fail.hpp>";
  ln "";
  ln "Now we can define the `primary_exp` parser using it:";
  ln "";
  ln "  > using primary_exp3 = one_of<int_token, paren_exp4, fail<missing_primary_expression>>;";
  ln "";
  ln "It adds [link fail `fail`]`<missing_primary_expression>` to `one_of` as the";
  ln "last element. Therefore if none of the ""real"" cases parse the input ['and] none";
  ln "of them makes any progress before failing, the error message will be";
  ln "`missing_primary_expression`.";
  ln "";
  ln "We need to define the rest of the parsers. Their definition is the same as";
  ln "before:";
  ln "";
  ln "  > using unary_exp3 = \";
  ln "  ...> foldr_start_with_parser< \";
  ln "  ...>   minus_token, \";
  ln "  ...>   primary_exp3, \";
  ln "  ...>   boost::mpl::lambda<boost::mpl::negate<boost::mpl::_1>>::type \";
  ln "  ...> >;";
  ln "  > using mult_exp6 = \";
  ln "  ...> foldl_start_with_parser< \";
  ln "  ...>   sequence<one_of<times_token, divides_token>, unary_exp3>, \";
  ln "  ...>   unary_exp3, \";
  ln "  ...>   boost::mpl::quote2<binary_op> \";
  ln "  ...> >;";
  ln "  > struct plus_exp3 : \";
  ln "  ...> foldl_start_with_parser< \";
  ln "  ...>   sequence<one_of<plus_token, minus_token>, mult_exp6>, \";
  ln "  ...>   mult_exp6, \";
  ln "  ...>   boost::mpl::quote2<binary_op> \";
  ln "  ...> > {};";
  ln "  > using exp_parser20 = build_parser<plus_exp3>;";
  ln "";
  ln "[link getting_started_37 copy-paste friendly version]";
  ln "";
  ln "We can try to give our new parser an invalid input:";
  ln "";
  ln "  > exp_parser20::apply<BOOST_METAPARSE_STRING(""hello"")>::type";
  ln "  << compilation error >>";
  ln "  ..... x__________________PARSING_FAILED__________________x<1, 1, missing_primary_expression> ....";
  ln "  << compilation error >>";
  ln "";
  ln "The error message is now more specific to the calculator language. This covers";
  ln "only one case, where the error messages can be improved. Other cases (eg.";
  ln "missing closing parens, missing operators, etc) can be covered in a similar way.";
  ln "";
  ln "[endsect]";
  ln "";
  ln "[section 11.3. Missing closing parens]";
  ln "";
  ln "Missing closing parens are common errors. Let's see how our parsers report them:";
  ln "";
  ln "  > exp_parser20::apply<BOOST_METAPARSE_STRING(""(1+2"")>::type";
  ln "  << compilation error >>";
  ln "  ..... x__________________PARSING_FAILED__________________x<1, 5, unpaired<1, 1, literal_expected<')'>>> ....";
  ln "  << compilation error >>";
  ln "";
  ln "The parser could detect that there is a missing paren and the error report";
  ln "points to the open paren which is not closed. This looks great, but we are not";
  ln "done yet. Let's try a slightly more complex input:";
  ln "";
  ln "  > exp_parser20::apply<BOOST_METAPARSE_STRING(""0+(1+2"")>::type";
  ln "  mpl_::integral_c<int, 0>";
  ln "";
  ln "This is getting strange now. We parse the `+ <mult_exp>` elements using";
  ln "[link foldl_start_with_parser `foldl_start_with_parser`] (see the definition of";
  ln "`plus_exp3`). [link foldl_start_with_parser `foldl_start_with_parser`] parses";
  ln "the input as long as it can and stops when it fails to parse it. In the above";
  ln "input, it parses `0` as the initial element and then it tries to parse the first";
  ln "`+ <mult_exp>` element. But parsing the `<mult_exp>` part fails because of the";
  ln "missing closing paren. So";
  ln "[link foldl_start_with_parser `foldl_start_with_parser`] stops and ignores this";
  ln "failing part of the input.";
  ln "";
  ln "The result of the above is that we parse only the `0` part of the input, ignore";
  ln "the ""garbage"" at the end and assume that the value of the expression is `0`.";
  ln "This could be fixed by using [link entire_input `entire_input`]. Our parser";
  ln "would reject the input (because of the ""garbage"" at the end), but the error";
  ln "message would not be useful. So we take a different approach.";
  ln "";
  ln "When [link foldl_start_with_parser `foldl_start_with_parser`] stops, we should";
  ln "check if there is an extra broken `+ <mult_exp>` there or not. When there is, we";
  ln "should report what is wrong with that broken `+ <mult_exp>` (eg. a missing";
  ln "closing paren). Metaparse provides [link fail_at_first_char_expected";
  ln "`fail_at_first_char_expected`] to implement such validations.";
  ln "[link fail_at_first_char_expected `fail_at_first_char_expected`]`<parser>`";
  ln "checks how `parser` fails to parse the input: when it fails right at the first";
  ln "character, [link fail_at_first_char_expected `fail_at_first_char_expected`]";
  ln "assumes that there is no garbage and accepts the input. When `parser` consumes";
  ln "characters from the input before failing,";
  ln "[link fail_at_first_char_expected `fail_at_first_char_expected`] assumes that";
  ln "there is a broken expression and propagates the error. It can be used the";
  ln "following way:";
  ln "";
  ln "  > #include <boost/metaparse/fail_at_first_char_expected.hpp>";
  ln "  > #include <boost/metaparse/first_of.hpp>";
  ln "  > struct plus_exp4 : \";
  ln "  ...> first_of< \";
  ln "  ...>   foldl_start_with_parser< \";
  ln "  ...>     sequence<one_of<plus_token, minus_token>, mult_exp6>, \";
  ln "  ...>     mult_exp6, \";
  ln "  ...>     boost::mpl::quote2<binary_op> \";
  ln "  ...>   >, \";
  ln "  ...>   fail_at_first_char_expected< \";
  ln "  ...>     sequence<one_of<plus_token, minus_token>, mult_exp6> \";
  ln "  ...>   > \";
  ln "  ...> > {};";
  ln "  > using exp_parser21 = build_parser<plus_exp4>;";
  ln "";
  ln "[link getting_started_38 copy-paste friendly version]";
  ln "";
  ln "[link first_of `first_of`] is similar to [link middle_of `middle_of`], but";
  ln "keeps the result of the first element, not the middle one. We use it to keep the";
  ln """real"" result (the result of";
  ln "[link foldl_start_with_parser `foldl_start_with_parser`]) and to throw the dummy";
  ln "result coming from";
  ln "[link fail_at_first_char_expected `fail_at_first_char_expected`] away when";
  ln "there is no broken expression at the end. [link first_of `first_of`] propagates";
  ln "any error coming from";
  ln "[link fail_at_first_char_expected `fail_at_first_char_expected`].";
  ln "";
  ln "Let's try this new expression parser out with a missing closing paren:";
  ln "";
  ln "  > exp_parser21::apply<BOOST_METAPARSE_STRING(""0+(1+2"")>::type";
  ln "  << compilation error >>";
  ln "  ..... x__________________PARSING_FAILED__________________x<1, 7, unpaired<1, 3, literal_expected<')'>>> ....";
  ln "  << compilation error >>";
  ln "";
  ln "This works as expected now: it tells us that there is a missing paren and it";
  ln "points us the open paren which is not closed.";
  ln "";
  ln "[section 11.3.1. Simplifying the parser]";
  ln "";
  ln "Our parser provides useful error messages for missing closing parens, however,";
  ln "the implementation of the parser (`plus_exp4`) is long and repetitive: it";
  ln "contains the parser for the repeated element";
  ln "([link sequence `sequence`]`<`[link one_of `one_of`]`<plus_token, minus_token>, mult_exp6>`) twice, and that is not ideal.";
  ln "";
  ln "`plus_exp4` uses [link foldl_start_with_parser `foldl_start_with_parser`] to";
  ln "implement repetition. Metaparse provides";
  ln "[link foldl_reject_incomplete_start_with_parser `foldl_reject_incomplete_start_with_parser`]";
  ln "which does the same we did with [link first_of `first_of`],";
  ln "[link foldl_start_with_parser `foldl_start_with_parser`] and";
  ln "[link fail_at_first_char_expected `fail_at_first_char_expected`] together:";
  ln "";
  ln "  > #include <boost/metaparse/foldl_reject_incomplete_start_with_parser.hpp>";
  ln "  > struct plus_exp5 : \";
  ln "  ...> foldl_reject_incomplete_start_with_parser< \";
  ln "  ...>   sequence<one_of<plus_token, minus_token>, mult_exp6>, \";
  ln "  ...>   mult_exp6, \";
  ln "  ...>   boost::mpl::quote2<binary_op> \";
  ln "  ...> > {};";
  ln "  > using exp_parser22 = build_parser<plus_exp5>;";
  ln "";
  ln "[link getting_started_39 copy-paste friendly version]";
  ln "";
  ln "It parses the input using";
  ln "[link sequence `sequence`]`<`[link one_of `one_of`]`<plus_token, minus_token>, mult_exp6>`)";
  ln "repeatedly. When it fails,";
  ln "[link foldl_reject_incomplete_start_with_parser `foldl_reject_incomplete_start_with_parser`]";
  ln "checks if it consumed any character before failing (the same as what";
  ln "[link fail_at_first_char_expected `fail_at_first_char_expected`] does), and if";
  ln "yes, then";
  ln "[link foldl_reject_incomplete_start_with_parser `foldl_reject_incomplete_start_with_parser`]";
  ln "fails.";
  ln "";
  ln "This makes the implementation of the repetition with advanced error reporting";
  ln "simpler. Let's try it out:";
  ln "";
  ln "  > exp_parser22::apply<BOOST_METAPARSE_STRING(""0+(1+2"")>::type";
  ln "  << compilation error >>";
  ln "  ..... x__________________PARSING_FAILED__________________x<1, 7, unpaired<1, 3, literal_expected<')'>>> ....";
  ln "  << compilation error >>";
  ln "";
  ln "Note that other folding parsers have their `f` versions as well (eg.";
  ln "[link foldr_reject_incomplete `foldr_reject_incomplete`],";
  ln "[link foldl_reject_incomplete1 `foldl_reject_incomplete1`], etc).";
  ln "";
  ln "[endsect]";
  ln "[section 11.3.2. Using `foldl_reject_incomplete_start_with_parser` at other places as well]";
  ln "";
  ln "We have replaced one [link foldl_start_with_parser `foldl_start_with_parser`]";
  ln "with";
  ln "[link foldl_reject_incomplete_start_with_parser `foldl_reject_incomplete_start_with_parser`].";
  ln "Other layers (`mult_exp`, `unary_exp`, etc) use folding as well. Let's use it at";
  ln "all layers:";
  ln "";
  ln "  > struct plus_exp6;";
  ln "  > using paren_exp5 = middle_of<lparen_token, plus_exp6, rparen_token>;";
  ln "  > using primary_exp4 = one_of<int_token, paren_exp5, fail<missing_primary_expression>>;";
  ln "  > using unary_exp4 = \";
  ln "  ...> foldr_start_with_parser< \";
  ln "  ...>   minus_token, \";
  ln "  ...>   primary_exp4, \";
  ln "  ...>   boost::mpl::lambda<boost::mpl::negate<boost::mpl::_1>>::type \";
  ln "  ...> >;";
  ln "  > using mult_exp7 = \";
  ln "  ...> foldl_reject_incomplete_start_with_parser< \";
  ln "  ...>   sequence<one_of<times_token, divides_token>, unary_exp4>, \";
  ln "  ...>   unary_exp4, \";
  ln "  ...>   boost::mpl::quote2<binary_op> \";
  ln "  ...> >;";
  ln "  > struct plus_exp6 : \";
  ln "  ...> foldl_reject_incomplete_start_with_parser< \";
  ln "  ...>   sequence<one_of<plus_token, minus_token>, mult_exp7>, \";
  ln "  ...>   mult_exp7, \";
  ln "  ...>   boost::mpl::quote2<binary_op> \";
  ln "  ...> > {};";
  ln "  > using exp_parser23 = build_parser<plus_exp6>;";
  ln "";
  ln "[link getting_started_40 copy-paste friendly version]";
  ln "";
  ln "[note";
  ln "Note that `unary_exp4` uses";
  ln "[link foldr_start_with_parser `foldr_start_with_parser`] instead of";
  ln "`foldr_reject_incomplete_start_with_parser`. The reason behind it is that there";
  ln "is no `foldr_reject_incomplete_start_with_parser`.";
  ln "[link foldr_start_with_parser `foldr_start_with_parser`] applies the";
  ln "`primary_exp4` parser when `minus_token` does not accept the input any more.";
  ln "Therefore, it is supposed to catch the errors of incomplete expressions after";
  ln "the repetition.";
  ln "]";
  ln "";
  ln "Let's try different invalid expressions:";
  ln "";
  ln "  > exp_parser23::apply<BOOST_METAPARSE_STRING(""1+(2*"")>::type";
  ln "  << compilation error >>";
  ln "  ..... x__________________PARSING_FAILED__________________x<1, 6, missing_primary_expression> ....";
  ln "  << compilation error >>";
  ln "";
  ln "  > exp_parser23::apply<BOOST_METAPARSE_STRING(""1+(2*3"")>::type";
  ln "  << compilation error >>";
  ln "  ..... x__________________PARSING_FAILED__________________x<1, 7, unpaired<1, 3, literal_expected<')'>>> ....";
  ln "  << compilation error >>";
  ln "";
  ln "[endsect]";
  ln "";
  ln "[endsect]";
  ln "";
  ln "[endsect]";
  ln "";
  ln "[section 12. Summary]";
  ln "";
  ln "This tutorial showed you how to build a parser for a calculator language. Now";
  ln "that you understand how to do this, you should be able to use the same";
  ln "techniques and building blocks presented here to build a parser for your own";
  ln "language. You should start building the parser and once you face a problem (eg.";
  ln "you need to add parens or you need better error messages) you can always return";
  ln "to this tutorial and read the section showing you how to deal with those";
  ln "situations.";
  ln "";
  ln "[endsect]";
  ln "";
  ln "[section Copy-paste friendly code examples]";
  ln "";
  ln "[include getting_started_0.qbk]";
  ln "[include getting_started_1.qbk]";
  ln "[include getting_started_2.qbk]";
  ln "[include getting_started_3.qbk]";
  ln "[include getting_started_4.qbk]";
  ln "[include getting_started_5.qbk]";
  ln "[include getting_started_6.qbk]";
  ln "[include getting_started_7.qbk]";
  ln "[include getting_started_8.qbk]";
  ln "[include getting_started_9.qbk]";
  ln "[include getting_started_10.qbk]";
  ln "[include getting_started_11.qbk]";
  ln "[include getting_started_12.qbk]";
  ln "[include getting_started_13.qbk]";
  ln "[include getting_started_14.qbk]";
  ln "[include getting_started_15.qbk]";
  ln "[include getting_started_16.qbk]";
  ln "[include getting_started_17.qbk]";
  ln "[include getting_started_18.qbk]";
  ln "[include getting_started_19.qbk]";
  ln "[include getting_started_20.qbk]";
  ln "[include getting_started_21.qbk]";
  ln "[include getting_started_22.qbk]";
  ln "[include getting_started_23.qbk]";
  ln "[include getting_started_24.qbk]";
  ln "[include getting_started_25.qbk]";
  ln "[include getting_started_26.qbk]";
  ln "[include getting_started_27.qbk]";
  ln "[include getting_started_28.qbk]";
  ln "[include getting_started_29.qbk]";
  ln "[include getting_started_30.qbk]";
  ln "[include getting_started_31.qbk]";
  ln "[include getting_started_32.qbk]";
  ln "[include getting_started_33.qbk]";
  ln "[include getting_started_34.qbk]";
  ln "[include getting_started_35.qbk]";
  ln "[include getting_started_36.qbk]";
  ln "[include getting_started_37.qbk]";
  ln "[include getting_started_38.qbk]";
  ln "[include getting_started_39.qbk]";
  ln "[include getting_started_40.qbk]";
  ln "";
  ln "[endsect]";
  ln "";
  ln "[section Definitions before each section]";
  ln "";
  ln "[include before_3.qbk]";
  ln "[include before_3_1.qbk]";
  ln "[include before_3_2.qbk]";
  ln "[include before_3_3.qbk]";
  ln "[include before_4.qbk]";
  ln "[include before_4_1.qbk]";
  ln "[include before_4_2.qbk]";
  ln "[include before_5.qbk]";
  ln "[include before_5_1.qbk]";
  ln "[include before_5_2.qbk]";
  ln "[include before_5_2_1.qbk]";
  ln "[include before_5_2_2.qbk]";
  ln "[include before_5_2_3.qbk]";
  ln "[include before_5_2_4.qbk]";
  ln "[include before_6.qbk]";
  ln "[include before_6_1.qbk]";
  ln "[include before_6_2.qbk]";
  ln "[include before_7.qbk]";
  ln "[include before_7_1.qbk]";
  ln "[include before_7_2.qbk]";
  ln "[include before_8.qbk]";
  ln "[include before_8_1.qbk]";
  ln "[include before_8_2.qbk]";
  ln "[include before_9.qbk]";
  ln "[include before_10.qbk]";
  ln "[include before_11.qbk]";
  ln "[include before_11_1.qbk]";
  ln "[include before_11_2.qbk]";
  ln "[include before_11_3.qbk]";
  ln "[include before_11_3_1.qbk]";
  ln "[include before_11_3_2.qbk]";
  ln "[include before_12.qbk]";
  ln "";
  ln "[endsect]";
  ln "";
  ln "[endsect]";
  ln ""].

(** example/getting_started/1.hpp *)
Definition headers_0 : list str := [
  ln "#ifndef BOOST_METAPARSE_GETTING_STARTED_1_HPP";
  ln "#define BOOST_METAPARSE_GETTING_STARTED_1_HPP";
  ln "";
  ln "// Automatically generated header file";
  ln "";
  ln "// Definitions of section ";
  ln "";
  ln "#endif";
  ln ""].

(** example/getting_started/10.hpp *)
Definition headers_1 : list str := [
  ln "#ifndef BOOST_METAPARSE_GETTING_STARTED_10_HPP";
  ln "#define BOOST_METAPARSE_GETTING_STARTED_10_HPP";
  ln "";
  ln "// Automatically generated header file";
  ln "";
  ln "// Definitions before section 9";
  ln "#include ""9.hpp""";
  ln "";
  ln "// Definitions of section 9";
  ln "#include <boost/mpl/negate.hpp>";
  ln "";
  ln "using unary_exp1 = ";
  ln " foldr_start_with_parser< ";
  ln "   minus_token, ";
  ln "   int_token, ";
  ln "   boost::mpl::lambda<boost::mpl::negate<boost::mpl::_1>>::type ";
  ln " >;";
  ln "";
  ln "using mult_exp4 = ";
  ln " foldl_start_with_parser< ";
  ln "   sequence<one_of<times_token, divides_token>, unary_exp1>, ";
  ln "   unary_exp1, ";
  ln "   boost::mpl::quote2<binary_op> ";
  ln " >;";
  ln "";
  ln "using exp_parser18 = ";
  ln " build_parser< ";
  ln "   foldl_start_with_parser< ";
  ln "     sequence<one_of<plus_token, minus_token>, mult_exp4>, ";
  ln "     mult_exp4, ";
  ln "     boost::mpl::quote2<binary_op> ";
  ln "   > ";
  ln " >;";
  ln "";
  ln "// query:";
  ln "//    exp_parser18::apply<BOOST_METAPARSE_STRING(""---13"")>::type";
  ln "";
  ln "// query:";
  ln "//    exp_parser18::apply<BOOST_METAPARSE_STRING(""13"")>::type";
  ln "";
  ln "#endif";
  ln ""].

(** example/getting_started/11.hpp *)
Definition headers_2 : list str := [
  ln "#ifndef BOOST_METAPARSE_GETTING_STARTED_11_HPP";
  ln "#define BOOST_METAPARSE_GETTING_STARTED_11_HPP";
  ln "";
  ln "// Automatically generated header file";
  ln "";
  ln "// Definitions before section 10";
  ln "#include ""10.hpp""";
  ln "";
  ln "// Definitions of section 10";
  ln "using lparen_token = token<lit_c<'('>>;";
  ln "";
  ln "using rparen_token = token<lit_c<')'>>;";
  ln "";
  ln "using plus_exp1 = ";
  ln " foldl_start_with_parser< ";
  ln "   sequence<one_of<plus_token, minus_token>, mult_exp4>, ";
  ln "   mult_exp4, ";
  ln "   boost::mpl::quote2<binary_op> ";
  ln " >;";
  ln "";
  ln "using paren_exp1 = sequence<lparen_token, plus_exp1, rparen_token>;";
  ln "";
  ln "#include <boost/metaparse/middle_of.hpp>";
  ln "";
  ln "using paren_exp2 = middle_of<lparen_token, plus_exp1, rparen_token>;";
  ln "";
  ln "using primary_exp1 = one_of<int_token, paren_exp2>;";
  ln "";
  ln "struct plus_exp2;";
  ln "";
  ln "using paren_exp3 = middle_of<lparen_token, plus_exp2, rparen_token>;";
  ln "";
  ln "using primary_exp2 = one_of<int_token, paren_exp2>;";
  ln "";
  ln "using unary_exp2 = ";
  ln " foldr_start_with_parser< ";
  ln "   minus_token, ";
  ln "   primary_exp2, ";
  ln "   boost::mpl::lambda<boost::mpl::negate<boost::mpl::_1>>::type ";
  ln " >;";
  ln "";
  ln "using mult_exp5 = ";
  ln " foldl_start_with_parser< ";
  ln "   sequence<one_of<times_token, divides_token>, unary_exp2>, ";
  ln "   unary_exp2, ";
  ln "   boost::mpl::quote2<binary_op> ";
  ln " >;";
  ln "";
  ln "struct plus_exp2 : ";
  ln " foldl_start_with_parser< ";
  ln "   sequence<one_of<plus_token, minus_token>, mult_exp5>, ";
  ln "   mult_exp5, ";
  ln "   boost::mpl::quote2<binary_op> ";
  ln " > {};";
  ln "";
  ln "using exp_parser19 = build_parser<plus_exp2>;";
  ln "";
  ln "// query:";
  ln "//    exp_parser19::apply<BOOST_METAPARSE_STRING(""(1 + 2) * 3"")>::type";
  ln "";
  ln "#endif";
  ln ""].

(** example/getting_started/11_1.hpp *)
Definition headers_3 : list str := [
  ln "#ifndef BOOST_METAPARSE_GETTING_STARTED_11_1_HPP";
  ln "#define BOOST_METAPARSE_GETTING_STARTED_11_1_HPP";
  ln "";
  ln "// Automatically generated header file";
  ln "";
  ln "// Definitions before section 11";
  ln "#include ""11.hpp""";
  ln "";
  ln "// Definitions of section 11";
  ln "// query:";
  ln "//    exp_parser19::apply<BOOST_METAPARSE_STRING(""hello"")>::type";
  ln "";
  ln "#endif";
  ln ""].

(** example/getting_started/11_2.hpp *)
Definition headers_4 : list str := [
  ln "#ifndef BOOST_METAPARSE_GETTING_STARTED_11_2_HPP";
  ln "#define BOOST_METAPARSE_GETTING_STARTED_11_2_HPP";
  ln "";
  ln "// Automatically generated header file";
  ln "";
  ln "// Definitions before section 11.1";
  ln "#include ""11_1.hpp""";
  ln "";
  ln "// Definitions of section 11.1";
  ln "";
  ln "#endif";
  ln ""].

(** example/getting_started/11_3.hpp *)
Definition headers_5 : list str := [
  ln "#ifndef BOOST_METAPARSE_GETTING_STARTED_11_3_HPP";
  ln "#define BOOST_METAPARSE_GETTING_STARTED_11_3_HPP";
  ln "";
  ln "// Automatically generated header file";
  ln "";
  ln "// Definitions before section 11.2";
  ln "#include ""11_2.hpp""";
  ln "";
  ln "// Definitions of section 11.2";
  ln "#include <boost/metaparse/define_error.hpp>";
  ln "";
  ln "BOOST_METAPARSE_DEFINE_ERROR(missing_primary_expression, ""Missing primary expression"");";
  ln "";
  ln "struct plus_exp3;";
  ln "";
  ln "using paren_exp4 = middle_of<lparen_token, plus_exp3, rparen_token>;";
  ln "";
  ln "#include <boost/metaparse/fail.hpp>";
  ln "";
  ln "using primary_exp3 = one_of<int_token, paren_exp4, fail<missing_primary_expression>>;";
  ln "";
  ln "using unary_exp3 = ";
  ln " foldr_start_with_parser< ";
  ln "   minus_token, ";
  ln "   primary_exp3, ";
  ln "   boost::mpl::lambda<boost::mpl::negate<boost::mpl::_1>>::type ";
  ln " >;";
  ln "";
  ln "using mult_exp6 = ";
  ln " foldl_start_with_parser< ";
  ln "   sequence<one_of<times_token, divides_token>, unary_exp3>, ";
  ln "   unary_exp3, ";
  ln "   boost::mpl::quote2<binary_op> ";
  ln " >;";
  ln "";
  ln "struct plus_exp3 : ";
  ln " foldl_start_with_parser< ";
  ln "   sequence<one_of<plus_token, minus_token>, mult_exp6>, ";
  ln "   mult_exp6, ";
  ln "   boost::mpl::quote2<binary_op> ";
  ln " > {};";
  ln "";
  ln "using exp_parser20 = build_parser<plus_exp3>;";
  ln "";
  ln "// query:";
  ln "//    exp_parser20::apply<BOOST_METAPARSE_STRING(""hello"")>::type";
  ln "";
  ln "#endif";
  ln ""].

(** example/getting_started/11_3_1.hpp *)
Definition headers_6 : list str := [
  ln "#ifndef BOOST_METAPARSE_GETTING_STARTED_11_3_1_HPP";
  ln "#define BOOST_METAPARSE_GETTING_STARTED_11_3_1_HPP";
  ln "";
  ln "// Automatically generated header file";
  ln "";
  ln "// Definitions before section 11.3";
  ln "#include ""11_3.hpp""";
  ln "";
  ln "// Definitions of section 11.3";
  ln "// query:";
  ln "//    exp_parser20::apply<BOOST_METAPARSE_STRING(""(1+2"")>::type";
  ln "";
  ln "// query:";
  ln "//    exp_parser20::apply<BOOST_METAPARSE_STRING(""0+(1+2"")>::type";
  ln "";
  ln "#include <boost/metaparse/fail_at_first_char_expected.hpp>";
  ln "";
  ln "#include <boost/metaparse/first_of.hpp>";
  ln "";
  ln "struct plus_exp4 : ";
  ln " first_of< ";
  ln "   foldl_start_with_parser< ";
  ln "     sequence<one_of<plus_token, minus_token>, mult_exp6>, ";
  ln "     mult_exp6, ";
  ln "     boost::mpl::quote2<binary_op> ";
  ln "   >, ";
  ln "   fail_at_first_char_expected< ";
  ln "     sequence<one_of<plus_token, minus_token>, mult_exp6> ";
  ln "   > ";
  ln " > {};";
  ln "";
  ln "using exp_parser21 = build_parser<plus_exp4>;";
  ln "";
  ln "// query:";
  ln "//    exp_parser21::apply<BOOST_METAPARSE_STRING(""0+(1+2"")>::type";
  ln "";
  ln "#endif";
  ln ""].

(** example/getting_started/11_3_2.hpp *)
Definition headers_7 : list str := [
  ln "#ifndef BOOST_METAPARSE_GETTING_STARTED_11_3_2_HPP";
  ln "#define BOOST_METAPARSE_GETTING_STARTED_11_3_2_HPP";
  ln "";
  ln "// Automatically generated header file";
  ln "";
  ln "// Definitions before section 11.3.1";
  ln "#include ""11_3_1.hpp""";
  ln "";
  ln "// Definitions of section 11.3.1";
  ln "#include <boost/metaparse/foldl_reject_incomplete_start_with_parser.hpp>";
  ln "";
  ln "struct plus_exp5 : ";
  ln " foldl_reject_incomplete_start_with_parser< ";
  ln "   sequence<one_of<plus_token, minus_token>, mult_exp6>, ";
  ln "   mult_exp6, ";
  ln "   boost::mpl::quote2<binary_op> ";
  ln " > {};";
  ln "";
  ln "using exp_parser22 = build_parser<plus_exp5>;";
  ln "";
  ln "// query:";
  ln "//    exp_parser22::apply<BOOST_METAPARSE_STRING(""0+(1+2"")>::type";
  ln "";
  ln "#endif";
  ln ""].

(** example/getting_started/12.hpp *)
Definition headers_8 : list str := [
  ln "#ifndef BOOST_METAPARSE_GETTING_STARTED_12_HPP";
  ln "#define BOOST_METAPARSE_GETTING_STARTED_12_HPP";
  ln "";
  ln "// Automatically generated header file";
  ln "";
  ln "// Definitions before section 11.3.2";
  ln "#include ""11_3_2.hpp""";
  ln "";
  ln "// Definitions of section 11.3.2";
  ln "struct plus_exp6;";
  ln "";
  ln "using paren_exp5 = middle_of<lparen_token, plus_exp6, rparen_token>;";
  ln "";
  ln "using primary_exp4 = one_of<int_token, paren_exp5, fail<missing_primary_expression>>;";
  ln "";
  ln "using unary_exp4 = ";
  ln " foldr_start_with_parser< ";
  ln "   minus_token, ";
  ln "   primary_exp4, ";
  ln "   boost::mpl::lambda<boost::mpl::negate<boost::mpl::_1>>::type ";
  ln " >;";
  ln "";
  ln "using mult_exp7 = ";
  ln " foldl_reject_incomplete_start_with_parser< ";
  ln "   sequence<one_of<times_token, divides_token>, unary_exp4>, ";
  ln "   unary_exp4, ";
  ln "   boost::mpl::quote2<binary_op> ";
  ln " >;";
  ln "";
  ln "struct plus_exp6 : ";
  ln " foldl_reject_incomplete_start_with_parser< ";
  ln "   sequence<one_of<plus_token, minus_token>, mult_exp7>, ";
  ln "   mult_exp7, ";
  ln "   boost::mpl::quote2<binary_op> ";
  ln " > {};";
  ln "";
  ln "using exp_parser23 = build_parser<plus_exp6>;";
  ln "";
  ln "// query:";
  ln "//    exp_parser23::apply<BOOST_METAPARSE_STRING(""1+(2*"")>::type";
  ln "";
  ln "// query:";
  ln "//    exp_parser23::apply<BOOST_METAPARSE_STRING(""1+(2*3"")>::type";
  ln "";
  ln "#endif";
  ln ""].

(** example/getting_started/1_1.hpp *)
Definition headers_9 : list str := [
  ln "#ifndef BOOST_METAPARSE_GETTING_STARTED_1_1_HPP";
  ln "#define BOOST_METAPARSE_GETTING_STARTED_1_1_HPP";
  ln "";
  ln "// Automatically generated header file";
  ln "";
  ln "// Definitions before section 1";
  ln "#include ""1.hpp""";
  ln "";
  ln "// Definitions of section 1";
  ln "";
  ln "#endif";
  ln ""].

(** example/getting_started/1_2.hpp *)
Definition headers_10 : list str := [
  ln "#ifndef BOOST_METAPARSE_GETTING_STARTED_1_2_HPP";
  ln "#define BOOST_METAPARSE_GETTING_STARTED_1_2_HPP";
  ln "";
  ln "// Automatically generated header file";
  ln "";
  ln "// Definitions before section 1.1";
  ln "#include ""1_1.hpp""";
  ln "";
  ln "// Definitions of section 1.1";
  ln "";
  ln "#endif";
  ln ""].

(** example/getting_started/1_2_1.hpp *)
Definition headers_11 : list str := [
  ln "#ifndef BOOST_METAPARSE_GETTING_STARTED_1_2_1_HPP";
  ln "#define BOOST_METAPARSE_GETTING_STARTED_1_2_1_HPP";
  ln "";
  ln "// Automatically generated header file";
  ln "";
  ln "// Definitions before section 1.2";
  ln "#include ""1_2.hpp""";
  ln "";
  ln "// Definitions of section 1.2";
  ln "";
  ln "#endif";
  ln ""].

(** example/getting_started/1_2_2.hpp *)
Definition headers_12 : list str := [
  ln "#ifndef BOOST_METAPARSE_GETTING_STARTED_1_2_2_HPP";
  ln "#define BOOST_METAPARSE_GETTING_STARTED_1_2_2_HPP";
  ln "";
  ln "// Automatically generated header file";
  ln "";
  ln "// Definitions before section 1.2.1";
  ln "#include ""1_2_1.hpp""";
  ln "";
  ln "// Definitions of section 1.2.1";
  ln "";
  ln "#endif";
  ln ""].

(** example/getting_started/2.hpp *)
Definition headers_13 : list str := [
  ln "#ifndef BOOST_METAPARSE_GETTING_STARTED_2_HPP";
  ln "#define BOOST_METAPARSE_GETTING_STARTED_2_HPP";
  ln "";
  ln "// Automatically generated header file";
  ln "";
  ln "// Definitions before section 1.2.2";
  ln "#include ""1_2_2.hpp""";
  ln "";
  ln "// Definitions of section 1.2.2";
  ln "";
  ln "#endif";
  ln ""].

(** example/getting_started/3.hpp *)
Definition headers_14 : list str := [
  ln "#ifndef BOOST_METAPARSE_GETTING_STARTED_3_HPP";
  ln "#define BOOST_METAPARSE_GETTING_STARTED_3_HPP";
  ln "";
  ln "// Automatically generated header file";
  ln "";
  ln "// Definitions before section 2";
  ln "#include ""2.hpp""";
  ln "";
  ln "// Definitions of section 2";
  ln "#include <boost/metaparse/string.hpp>";
  ln "";
  ln "// query:";
  ln "//    boost::metaparse::string<'1', '1', ' ', '+', ' ', '2'>";
  ln "";
  ln "// query:";
  ln "//    BOOST_METAPARSE_STRING(""11 + 2"")";
  ln "";
  ln "#endif";
  ln ""].

(** example/getting_started/3_1.hpp *)
Definition headers_15 : list str := [
  ln "#ifndef BOOST_METAPARSE_GETTING_STARTED_3_1_HPP";
  ln "#define BOOST_METAPARSE_GETTING_STARTED_3_1_HPP";
  ln "";
  ln "// Automatically generated header file";
  ln "";
  ln "// Definitions before section 3";
  ln "#include ""3.hpp""";
  ln "";
  ln "// Definitions of section 3";
  ln "#include <boost/metaparse/int_.hpp>";
  ln "";
  ln "#include <boost/metaparse/build_parser.hpp>";
  ln "";
  ln "using namespace boost::metaparse;";
  ln "";
  ln "using exp_parser1 = build_parser<int_>;";
  ln "";
  ln "// query:";
  ln "//    exp_parser1::apply<BOOST_METAPARSE_STRING(""13"")>::type";
  ln "";
  ln "#endif";
  ln ""].

(** example/getting_started/3_2.hpp *)
Definition headers_16 : list str := [
  ln "#ifndef BOOST_METAPARSE_GETTING_STARTED_3_2_HPP";
  ln "#define BOOST_METAPARSE_GETTING_STARTED_3_2_HPP";
  ln "";
  ln "// Automatically generated header file";
  ln "";
  ln "// Definitions before section 3.1";
  ln "#include ""3_1.hpp""";
  ln "";
  ln "// Definitions of section 3.1";
  ln "// query:";
  ln "//    exp_parser1::apply<BOOST_METAPARSE_STRING(""thirteen"")>::type";
  ln "";
  ln "#endif";
  ln ""].

(** example/getting_started/3_3.hpp *)
Definition headers_17 : list str := [
  ln "#ifndef BOOST_METAPARSE_GETTING_STARTED_3_3_HPP";
  ln "#define BOOST_METAPARSE_GETTING_STARTED_3_3_HPP";
  ln "";
  ln "// Automatically generated header file";
  ln "";
  ln "// Definitions before section 3.2";
  ln "#include ""3_2.hpp""";
  ln "";
  ln "// Definitions of section 3.2";
  ln "// query:";
  ln "//    exp_parser1::apply<BOOST_METAPARSE_STRING(""11 13"")>::type";
  ln "";
  ln "#include <boost/metaparse/entire_input.hpp>";
  ln "";
  ln "using exp_parser2 = build_parser<entire_input<int_>>;";
  ln "";
  ln "// query:";
  ln "//    exp_parser2::apply<BOOST_METAPARSE_STRING(""13"")>::type";
  ln "";
  ln "// query:";
  ln "//    exp_parser2::apply<BOOST_METAPARSE_STRING(""11 13"")>::type";
  ln "";
  ln "#endif";
  ln ""].

(** example/getting_started/4.hpp *)
Definition headers_18 : list str := [
  ln "#ifndef BOOST_METAPARSE_GETTING_STARTED_4_HPP";
  ln "#define BOOST_METAPARSE_GETTING_STARTED_4_HPP";
  ln "";
  ln "// Automatically generated header file";
  ln "";
  ln "// Definitions before section 3.3";
  ln "#include ""3_3.hpp""";
  ln "";
  ln "// Definitions of section 3.3";
  ln "// query:";
  ln "//    exp_parser2::apply<BOOST_METAPARSE_STRING(""11 "")>::type";
  ln "";
  ln "#include <boost/metaparse/token.hpp>";
  ln "";
  ln "using exp_parser3 = build_parser<entire_input<token<int_>>>;";
  ln "";
  ln "// query:";
  ln "//    exp_parser3::apply<BOOST_METAPARSE_STRING(""11 "")>::type";
  ln "";
  ln "#endif";
  ln ""].

(** example/getting_started/4_1.hpp *)
Definition headers_19 : list str := [
  ln "#ifndef BOOST_METAPARSE_GETTING_STARTED_4_1_HPP";
  ln "#define BOOST_METAPARSE_GETTING_STARTED_4_1_HPP";
  ln "";
  ln "// Automatically generated header file";
  ln "";
  ln "// Definitions before section 4";
  ln "#include ""4.hpp""";
  ln "";
  ln "// Definitions of section 4";
  ln "#include <boost/metaparse/lit_c.hpp>";
  ln "";
  ln "#include <boost/metaparse/sequence.hpp>";
  ln "";
  ln "using exp_parser4 = build_parser<sequence<token<int_>, token<lit_c<'+'>>, token<int_>>>;";
  ln "";
  ln "// query:";
  ln "//    exp_parser4::apply<BOOST_METAPARSE_STRING(""11 + 2"")>::type";
  ln "";
  ln "#ifdef __METASHELL";
  ln "#include <metashell/formatter.hpp>";
  ln "#endif";
  ln "";
  ln "// query:";
  ln "//    exp_parser4::apply<BOOST_METAPARSE_STRING(""11 + 2"")>::type";
  ln "";
  ln "#endif";
  ln ""].

(** example/getting_started/4_2.hpp *)
Definition headers_20 : list str := [
  ln "#ifndef BOOST_METAPARSE_GETTING_STARTED_4_2_HPP";
  ln "#define BOOST_METAPARSE_GETTING_STARTED_4_2_HPP";
  ln "";
  ln "// Automatically generated header file";
  ln "";
  ln "// Definitions before section 4.1";
  ln "#include ""4_1.hpp""";
  ln "";
  ln "// Definitions of section 4.1";
  ln "using int_token = token<int_>;";
  ln "";
  ln "using plus_token = token<lit_c<'+'>>;";
  ln "";
  ln "using exp_parser5 = build_parser<sequence<int_token, plus_token, int_token>>;";
  ln "";
  ln "// query:";
  ln "//    exp_parser5::apply<BOOST_METAPARSE_STRING(""11 + 2"")>::type";
  ln "";
  ln "#endif";
  ln ""].

(** example/getting_started/5.hpp *)
Definition headers_21 : list str := [
  ln "#ifndef BOOST_METAPARSE_GETTING_STARTED_5_HPP";
  ln "#define BOOST_METAPARSE_GETTING_STARTED_5_HPP";
  ln "";
  ln "// Automatically generated header file";
  ln "";
  ln "// Definitions before section 4.2";
  ln "#include ""4_2.hpp""";
  ln "";
  ln "// Definitions of section 4.2";
  ln "#include <boost/metaparse/transform.hpp>";
  ln "";
  ln "#include <boost/mpl/plus.hpp>";
  ln "";
  ln "#include <boost/mpl/at.hpp>";
  ln "";
  ln "template <class Vector> ";
  ln " struct eval_plus : ";
  ln "   boost::mpl::plus< ";
  ln "     typename boost::mpl::at_c<Vector, 0>::type, ";
  ln "     typename boost::mpl::at_c<Vector, 2>::type ";
  ln "   > {};";
  ln "";
  ln "// query:";
  ln "//   eval_plus< ";
  ln "//     boost::mpl::vector< ";
  ln "//       mpl_::integral_c<int, 11>, ";
  ln "//       mpl_::char_<'+'>, ";
  ln "//       mpl_::integral_c<int, 2> ";
  ln "//     >>::type";
  ln "";
  ln "#include <boost/mpl/quote.hpp>";
  ln "";
  ln "using exp_parser6 = ";
  ln " build_parser< ";
  ln "   transform< ";
  ln "     sequence<int_token, plus_token, int_token>, ";
  ln "     boost::mpl::quote1<eval_plus> ";
  ln "   > ";
  ln " >;";
  ln "";
  ln "// query:";
  ln "//    exp_parser6::apply<BOOST_METAPARSE_STRING(""11 + 2"")>::type";
  ln "";
  ln "#endif";
  ln ""].

(** example/getting_started/5_1.hpp *)
Definition headers_22 : list str := [
  ln "#ifndef BOOST_METAPARSE_GETTING_STARTED_5_1_HPP";
  ln "#define BOOST_METAPARSE_GETTING_STARTED_5_1_HPP";
  ln "";
  ln "// Automatically generated header file";
  ln "";
  ln "// Definitions before section 5";
  ln "#include ""5.hpp""";
  ln "";
  ln "// Definitions of section 5";
  ln "";
  ln "#endif";
  ln ""].

(** example/getting_started/5_2.hpp *)
Definition headers_23 : list str := [
  ln "#ifndef BOOST_METAPARSE_GETTING_STARTED_5_2_HPP";
  ln "#define BOOST_METAPARSE_GETTING_STARTED_5_2_HPP";
  ln "";
  ln "// Automatically generated header file";
  ln "";
  ln "// Definitions before section 5.1";
  ln "#include ""5_1.hpp""";
  ln "";
  ln "// Definitions of section 5.1";
  ln "#include <boost/metaparse/any.hpp>";
  ln "";
  ln "using exp_parser7 = ";
  ln " build_parser< ";
  ln "   sequence< ";
  ln "     int_token,                                /* The first <number> */ ";
  ln "     repeated<sequence<plus_token, int_token>> /* The ""+ <number>"" elements */ ";
  ln "   > ";
  ln " >;";
  ln "";
  ln "// query:";
  ln "//    exp_parser7::apply<BOOST_METAPARSE_STRING(""1 + 2 + 3 + 4"")>::type";
  ln "";
  ln "#endif";
  ln ""].

(** example/getting_started/5_2_1.hpp *)
Definition headers_24 : list str := [
  ln "#ifndef BOOST_METAPARSE_GETTING_STARTED_5_2_1_HPP";
  ln "#define BOOST_METAPARSE_GETTING_STARTED_5_2_1_HPP";
  ln "";
  ln "// Automatically generated header file";
  ln "";
  ln "// Definitions before section 5.2";
  ln "#include ""5_2.hpp""";
  ln "";
  ln "// Definitions of section 5.2";
  ln "using temp_result = exp_parser7::apply<BOOST_METAPARSE_STRING(""1 + 2 + 3 + 4"")>::type;";
  ln "";
  ln "#endif";
  ln ""].

(** example/getting_started/5_2_2.hpp *)
Definition headers_25 : list str := [
  ln "#ifndef BOOST_METAPARSE_GETTING_STARTED_5_2_2_HPP";
  ln "#define BOOST_METAPARSE_GETTING_STARTED_5_2_2_HPP";
  ln "";
  ln "// Automatically generated header file";
  ln "";
  ln "// Definitions before section 5.2.1";
  ln "#include ""5_2_1.hpp""";
  ln "";
  ln "// Definitions of section 5.2.1";
  ln "#include <boost/mpl/fold.hpp>";
  ln "";
  ln "using vector_of_numbers = ";
  ln " boost::mpl::vector< ";
  ln "   boost::mpl::int_<2>, ";
  ln "   boost::mpl::int_<5>, ";
  ln "   boost::mpl::int_<6> ";
  ln " >;";
  ln "";
  ln "template <class Vector> ";
  ln " struct sum_vector : ";
  ln "    boost::mpl::fold< ";
  ln "      Vector, ";
  ln "      boost::mpl::int_<0>, ";
  ln "      boost::mpl::lambda< ";
  ln "        boost::mpl::plus<boost::mpl::_1, boost::mpl::_2> ";
  ln "      >::type ";
  ln "    > ";
  ln "  {};";
  ln "";
  ln "// query:";
  ln "//    sum_vector<vector_of_numbers>::type";
  ln "";
  ln "template <class Sum, class Item> ";
  ln "   struct sum_items : ";
  ln "     boost::mpl::plus< ";
  ln "       Sum, ";
  ln "       typename boost::mpl::at_c<Item, 1>::type ";
  ln "     > ";
  ln " {};";
  ln "";
  ln "// query:";
  ln "//   sum_items< ";
  ln "//      mpl_::integral_c<int, 1>, ";
  ln "//      boost::mpl::vector<mpl_::char_<'+'>, mpl_::integral_c<int, 2>> ";
  ln "//    >::type";
  ln "";
  ln "// query:";
  ln "//    boost::mpl::at_c<temp_result, 1>::type";
  ln "";
  ln "// query:";
  ln "//   boost::mpl::fold< ";
  ln "//      boost::mpl::at_c<temp_result, 1>::type, /* The vector to summarise */ ";
  ln "//      boost::mpl::int_<0>, /* The value to start the sum from */ ";
  ln "//      boost::mpl::quote2<sum_items> /* The function to call in each iteration */ ";
  ln "//    >::type";
  ln "";
  ln "#endif";
  ln ""].

(** example/getting_started/5_2_3.hpp *)
Definition headers_26 : list str := [
  ln "#ifndef BOOST_METAPARSE_GETTING_STARTED_5_2_3_HPP";
  ln "#define BOOST_METAPARSE_GETTING_STARTED_5_2_3_HPP";
  ln "";
  ln "// Automatically generated header file";
  ln "";
  ln "// Definitions before section 5.2.2";
  ln "#include ""5_2_2.hpp""";
  ln "";
  ln "// Definitions of section 5.2.2";
  ln "using exp_parser8 = ";
  ln " build_parser< ";
  ln "   sequence< ";
  ln "     int_token, /* parse the first <number> */ ";
  ln "     transform< ";
  ln "       repeated<sequence<plus_token, int_token>>, /* parse the ""+ <number>"" elements */ ";
  ln "       /* lambda expression summarising the ""+ <number>"" elements using fold */ ";
  ln "       boost::mpl::lambda< ";
  ln "         /* The folding expression we have just created */ ";
  ln "         boost::mpl::fold< ";
  ln "           boost::mpl::_1, /* the argument of the lambda expression, the result */ ";
  ln "                           /* of the repeated<...> parser */ ";
  ln "           boost::mpl::int_<0>, ";
  ln "           boost::mpl::quote2<sum_items> ";
  ln "         > ";
  ln "       >::type ";
  ln "     > ";
  ln "   > ";
  ln " >;";
  ln "";
  ln "// query:";
  ln "//    exp_parser8::apply<BOOST_METAPARSE_STRING(""1 + 2 + 3 + 4"")>::type";
  ln "";
  ln "using exp_parser9 = ";
  ln " build_parser< ";
  ln "   transform< ";
  ln "     /* What we had so far */ ";
  ln "     sequence< ";
  ln "       int_token, ";
  ln "       transform< ";
  ln "         repeated<sequence<plus_token, int_token>>, ";
  ln "         boost::mpl::lambda< ";
  ln "           boost::mpl::fold< ";
  ln "             boost::mpl::_1, ";
  ln "             boost::mpl::int_<0>, ";
  ln "             boost::mpl::quote2<sum_items> ";
  ln "           > ";
  ln "         >::type ";
  ln "       > ";
  ln "     >, ";
  ln "     boost::mpl::quote1<sum_vector> /* summarise the vector of numbers */ ";
  ln "   > ";
  ln " >;";
  ln "";
  ln "// query:";
  ln "//    exp_parser9::apply<BOOST_METAPARSE_STRING(""1 + 2 + 3 + 4"")>::type";
  ln "";
  ln "#endif";
  ln ""].

(** example/getting_started/5_2_4.hpp *)
Definition headers_27 : list str := [
  ln "#ifndef BOOST_METAPARSE_GETTING_STARTED_5_2_4_HPP";
  ln "#define BOOST_METAPARSE_GETTING_STARTED_5_2_4_HPP";
  ln "";
  ln "// Automatically generated header file";
  ln "";
  ln "// Definitions before section 5.2.3";
  ln "#include ""5_2_3.hpp""";
  ln "";
  ln "// Definitions of section 5.2.3";
  ln "#include <boost/metaparse/foldl.hpp>";
  ln "";
  ln "using exp_parser10 = ";
  ln " build_parser< ";
  ln "   transform< ";
  ln "     sequence< ";
  ln "       int_token, ";
  ln "       foldl< ";
  ln "         sequence<plus_token, int_token>, ";
  ln "         boost::mpl::int_<0>, ";
  ln "         boost::mpl::quote2<sum_items> ";
  ln "       > ";
  ln "     >, ";
  ln "     boost::mpl::quote1<sum_vector>> ";
  ln " >;";
  ln "";
  ln "#endif";
  ln ""].

(** example/getting_started/6.hpp *)
Definition headers_28 : list str := [
  ln "#ifndef BOOST_METAPARSE_GETTING_STARTED_6_HPP";
  ln "#define BOOST_METAPARSE_GETTING_STARTED_6_HPP";
  ln "";
  ln "// Automatically generated header file";
  ln "";
  ln "// Definitions before section 5.2.4";
  ln "#include ""5_2_4.hpp""";
  ln "";
  ln "// Definitions of section 5.2.4";
  ln "#include <boost/metaparse/foldl_start_with_parser.hpp>";
  ln "";
  ln "using exp_parser11 = ";
  ln " build_parser< ";
  ln "   foldl_start_with_parser< ";
  ln "     sequence<plus_token, int_token>, /* apply this parser repeatedly */ ";
  ln "     int_token, /* use this parser to get the initial value */ ";
  ln "     boost::mpl::quote2<sum_items> /* use this function to add a new value to the summary */ ";
  ln "   > ";
  ln " >;";
  ln "";
  ln "// query:";
  ln "//    exp_parser11::apply<BOOST_METAPARSE_STRING(""1 + 2 + 3 + 4"")>::type";
  ln "";
  ln "#endif";
  ln ""].

(** example/getting_started/6_1.hpp *)
Definition headers_29 : list str := [
  ln "#ifndef BOOST_METAPARSE_GETTING_STARTED_6_1_HPP";
  ln "#define BOOST_METAPARSE_GETTING_STARTED_6_1_HPP";
  ln "";
  ln "// Automatically generated header file";
  ln "";
  ln "// Definitions before section 6";
  ln "#include ""6.hpp""";
  ln "";
  ln "// Definitions of section 6";
  ln "";
  ln "#endif";
  ln ""].

(** example/getting_started/6_2.hpp *)
Definition headers_30 : list str := [
  ln "#ifndef BOOST_METAPARSE_GETTING_STARTED_6_2_HPP";
  ln "#define BOOST_METAPARSE_GETTING_STARTED_6_2_HPP";
  ln "";
  ln "// Automatically generated header file";
  ln "";
  ln "// Definitions before section 6.1";
  ln "#include ""6_1.hpp""";
  ln "";
  ln "// Definitions of section 6.1";
  ln "using minus_token = token<lit_c<'-'>>;";
  ln "";
  ln "#include <boost/metaparse/one_of.hpp>";
  ln "";
  ln "using exp_parser12 = ";
  ln " build_parser< ";
  ln "   foldl_start_with_parser< ";
  ln "     sequence<one_of<plus_token, minus_token>, int_token>, ";
  ln "     int_token, ";
  ln "     boost::mpl::quote2<sum_items> ";
  ln "   > ";
  ln " >;";
  ln "";
  ln "// query:";
  ln "//    exp_parser12::apply<BOOST_METAPARSE_STRING(""1 + 2 - 3"")>::type";
  ln "";
  ln "#endif";
  ln ""].

(** example/getting_started/7.hpp *)
Definition headers_31 : list str := [
  ln "#ifndef BOOST_METAPARSE_GETTING_STARTED_7_HPP";
  ln "#define BOOST_METAPARSE_GETTING_STARTED_7_HPP";
  ln "";
  ln "// Automatically generated header file";
  ln "";
  ln "// Definitions before section 6.2";
  ln "#include ""6_2.hpp""";
  ln "";
  ln "// Definitions of section 6.2";
  ln "#include <boost/mpl/minus.hpp>";
  ln "";
  ln "template <class L, char Op, class R> struct eval_binary_op;";
  ln "";
  ln "template <class L, class R> struct eval_binary_op<L, '+', R> : boost::mpl::plus<L, R>::type {};";
  ln "";
  ln "template <class L, class R> struct eval_binary_op<L, '-', R> : boost::mpl::minus<L, R>::type {};";
  ln "";
  ln "// query:";
  ln "//    eval_binary_op<boost::mpl::int_<11>, '+', boost::mpl::int_<2>>::type";
  ln "";
  ln "// query:";
  ln "//    eval_binary_op<boost::mpl::int_<13>, '-', boost::mpl::int_<2>>::type";
  ln "";
  ln "template <class S, class Item> ";
  ln " struct binary_op : ";
  ln "   eval_binary_op< ";
  ln "     S, ";
  ln "     boost::mpl::at_c<Item, 0>::type::value, ";
  ln "     typename boost::mpl::at_c<Item, 1>::type ";
  ln "   > ";
  ln "   {};";
  ln "";
  ln "// query:";
  ln "//    binary_op<boost::mpl::int_<11>, boost::mpl::vector<boost::mpl::char_<'+'>, boost::mpl::int_<2>>>::type";
  ln "";
  ln "using exp_parser13 = ";
  ln " build_parser< ";
  ln "   foldl_start_with_parser< ";
  ln "     sequence<one_of<plus_token, minus_token>, int_token>, ";
  ln "     int_token, ";
  ln "     boost::mpl::quote2<binary_op> ";
  ln "   > ";
  ln " >;";
  ln "";
  ln "// query:";
  ln "//    exp_parser13::apply<BOOST_METAPARSE_STRING(""1 + 2 - 3"")>::type";
  ln "";
  ln "#endif";
  ln ""].

(** example/getting_started/7_1.hpp *)
Definition headers_32 : list str := [
  ln "#ifndef BOOST_METAPARSE_GETTING_STARTED_7_1_HPP";
  ln "#define BOOST_METAPARSE_GETTING_STARTED_7_1_HPP";
  ln "";
  ln "// Automatically generated header file";
  ln "";
  ln "// Definitions before section 7";
  ln "#include ""7.hpp""";
  ln "";
  ln "// Definitions of section 7";
  ln "";
  ln "#endif";
  ln ""].

(** example/getting_started/7_2.hpp *)
Definition headers_33 : list str := [
  ln "#ifndef BOOST_METAPARSE_GETTING_STARTED_7_2_HPP";
  ln "#define BOOST_METAPARSE_GETTING_STARTED_7_2_HPP";
  ln "";
  ln "// Automatically generated header file";
  ln "";
  ln "// Definitions before section 7.1";
  ln "#include ""7_1.hpp""";
  ln "";
  ln "// Definitions of section 7.1";
  ln "#include <boost/mpl/times.hpp>";
  ln "";
  ln "template <class L, class R> struct eval_binary_op<L, '*', R> : boost::mpl::times<L, R>::type {};";
  ln "";
  ln "// query:";
  ln "//    eval_binary_op<boost::mpl::int_<3>, '*', boost::mpl::int_<4>>::type";
  ln "";
  ln "using times_token = token<lit_c<'*'>>;";
  ln "";
  ln "using exp_parser14 = ";
  ln " build_parser< ";
  ln "   foldl_start_with_parser< ";
  ln "     sequence<one_of<plus_token, minus_token, times_token>, int_token>, ";
  ln "     int_token, ";
  ln "     boost::mpl::quote2<binary_op> ";
  ln "   > ";
  ln " >;";
  ln "";
  ln "// query:";
  ln "//    exp_parser14::apply<BOOST_METAPARSE_STRING(""2 * 3"")>::type";
  ln "";
  ln "// query:";
  ln "//    exp_parser14::apply<BOOST_METAPARSE_STRING(""1 + 2 * 3"")>::type";
  ln "";
  ln "#endif";
  ln ""].

(** example/getting_started/8.hpp *)
Definition headers_34 : list str := [
  ln "#ifndef BOOST_METAPARSE_GETTING_STARTED_8_HPP";
  ln "#define BOOST_METAPARSE_GETTING_STARTED_8_HPP";
  ln "";
  ln "// Automatically generated header file";
  ln "";
  ln "// Definitions before section 7.2";
  ln "#include ""7_2.hpp""";
  ln "";
  ln "// Definitions of section 7.2";
  ln "using mult_exp1 = foldl_start_with_parser<sequence<times_token, int_token>, int_token, boost::mpl::quote2<binary_op>>;";
  ln "";
  ln "using exp_parser15 = ";
  ln " build_parser< ";
  ln "   foldl_start_with_parser< ";
  ln "     sequence<one_of<plus_token, minus_token>, mult_exp1>, ";
  ln "     mult_exp1, ";
  ln "     boost::mpl::quote2<binary_op> ";
  ln "   > ";
  ln " >;";
  ln "";
  ln "// query:";
  ln "//    exp_parser15::apply<BOOST_METAPARSE_STRING(""1 + 2 * 3"")>::type";
  ln "";
  ln "#endif";
  ln ""].

(** example/getting_started/8_1.hpp *)
Definition headers_35 : list str := [
  ln "#ifndef BOOST_METAPARSE_GETTING_STARTED_8_1_HPP";
  ln "#define BOOST_METAPARSE_GETTING_STARTED_8_1_HPP";
  ln "";
  ln "// Automatically generated header file";
  ln "";
  ln "// Definitions before section 8";
  ln "#include ""8.hpp""";
  ln "";
  ln "// Definitions of section 8";
  ln "#include <boost/mpl/divides.hpp>";
  ln "";
  ln "template <class L, class R> struct eval_binary_op<L, '/', R> : boost::mpl::divides<L, R>::type {};";
  ln "";
  ln "using divides_token = token<lit_c<'/'>>;";
  ln "";
  ln "using mult_exp2 = ";
  ln " foldl_start_with_parser< ";
  ln "   sequence<one_of<times_token, divides_token>, int_token>, ";
  ln "   int_token, ";
  ln "   boost::mpl::quote2<binary_op> ";
  ln " >;";
  ln "";
  ln "using exp_parser16 = ";
  ln " build_parser< ";
  ln "   foldl_start_with_parser< ";
  ln "     sequence<one_of<plus_token, minus_token>, mult_exp2>, ";
  ln "     mult_exp2, ";
  ln "     boost::mpl::quote2<binary_op> ";
  ln "   > ";
  ln " >;";
  ln "";
  ln "// query:";
  ln "//    exp_parser16::apply<BOOST_METAPARSE_STRING(""8 / 4"")>::type";
  ln "";
  ln "#endif";
  ln ""].

(** example/getting_started/8_2.hpp *)
Definition headers_36 : list str := [
  ln "#ifndef BOOST_METAPARSE_GETTING_STARTED_8_2_HPP";
  ln "#define BOOST_METAPARSE_GETTING_STARTED_8_2_HPP";
  ln "";
  ln "// Automatically generated header file";
  ln "";
  ln "// Definitions before section 8.1";
  ln "#include ""8_1.hpp""";
  ln "";
  ln "// Definitions of section 8.1";
  ln "";
  ln "#endif";
  ln ""].

(** example/getting_started/9.hpp *)
Definition headers_37 : list str := [
  ln "#ifndef BOOST_METAPARSE_GETTING_STARTED_9_HPP";
  ln "#define BOOST_METAPARSE_GETTING_STARTED_9_HPP";
  ln "";
  ln "// Automatically generated header file";
  ln "";
  ln "// Definitions before section 8.2";
  ln "#include ""8_2.hpp""";
  ln "";
  ln "// Definitions of section 8.2";
  ln "template <class S, class Item> ";
  ln " struct reverse_binary_op : ";
  ln "   eval_binary_op< ";
  ln "     typename boost::mpl::at_c<Item, 0>::type, ";
  ln "     boost::mpl::at_c<Item, 1>::type::value, ";
  ln "     S ";
  ln "   > ";
  ln "   {};";
  ln "";
  ln "#include <boost/metaparse/foldr_start_with_parser.hpp>";
  ln "";
  ln "using mult_exp3 = ";
  ln " foldr_start_with_parser< ";
  ln "   sequence<int_token, one_of<times_token, divides_token>>, /* The parser applied repeatedly */ ";
  ln "   int_token, /* The parser parsing the last number */ ";
  ln "   boost::mpl::quote2<reverse_binary_op> /* The function called for every result */ ";
  ln "                                         /* of applying the above parser */ ";
  ln " >;";
  ln "";
  ln "using exp_parser17 = ";
  ln " build_parser< ";
  ln "   foldl_start_with_parser< ";
  ln "     sequence<one_of<plus_token, minus_token>, mult_exp3>, ";
  ln "     mult_exp3, ";
  ln "     boost::mpl::quote2<binary_op> ";
  ln "   > ";
  ln " >;";
  ln "";
  ln "// query:";
  ln "//    exp_parser17::apply<BOOST_METAPARSE_STRING(""8 / 4 / 2"")>::type";
  ln "";
  ln "#endif";
  ln ""].

Definition headers : files := [
  (literal "1.hpp", concat headers_0);
  (literal "10.hpp", concat headers_1);
  (literal "11.hpp", concat headers_2);
  (literal "11_1.hpp", concat headers_3);
  (literal "11_2.hpp", concat headers_4);
  (literal "11_3.hpp", concat headers_5);
  (literal "11_3_1.hpp", concat headers_6);
  (literal "11_3_2.hpp", concat headers_7);
  (literal "12.hpp", concat headers_8);
  (literal "1_1.hpp", concat headers_9);
  (literal "1_2.hpp", concat headers_10);
  (literal "1_2_1.hpp", concat headers_11);
  (literal "1_2_2.hpp", concat headers_12);
  (literal "2.hpp", concat headers_13);
  (literal "3.hpp", concat headers_14);
  (literal "3_1.hpp", concat headers_15);
  (literal "3_2.hpp", concat headers_16);
  (literal "3_3.hpp", concat headers_17);
  (literal "4.hpp", concat headers_18);
  (literal "4_1.hpp", concat headers_19);
  (literal "4_2.hpp", concat headers_20);
  (literal "5.hpp", concat headers_21);
  (literal "5_1.hpp", concat headers_22);
  (literal "5_2.hpp", concat headers_23);
  (literal "5_2_1.hpp", concat headers_24);
  (literal "5_2_2.hpp", concat headers_25);
  (literal "5_2_3.hpp", concat headers_26);
  (literal "5_2_4.hpp", concat headers_27);
  (literal "6.hpp", concat headers_28);
  (literal "6_1.hpp", concat headers_29);
  (literal "6_2.hpp", concat headers_30);
  (literal "7.hpp", concat headers_31);
  (literal "7_1.hpp", concat headers_32);
  (literal "7_2.hpp", concat headers_33);
  (literal "8.hpp", concat headers_34);
  (literal "8_1.hpp", concat headers_35);
  (literal "8_2.hpp", concat headers_36);
  (literal "9.hpp", concat headers_37)].

(** doc/before_10.qbk *)
Definition pages_0 : list str := [
  ln "[#before_10]";
  ln "['Definitions before section 10.]";
  ln "";
  ln "  #include <boost/metaparse/string.hpp>";
  ln "  #include <boost/metaparse/int_.hpp>";
  ln "";
  ln "  #include <boost/metaparse/build_parser.hpp>";
  ln "";
  ln "  using namespace boost::metaparse;";
  ln "";
  ln "  using exp_parser1 = build_parser<int_>;";
  ln "  #include <boost/metaparse/entire_input.hpp>";
  ln "";
  ln "  using exp_parser2 = build_parser<entire_input<int_>>;";
  ln "  #include <boost/metaparse/token.hpp>";
  ln "";
  ln "  using exp_parser3 = build_parser<entire_input<token<int_>>>;";
  ln "  #include <boost/metaparse/lit_c.hpp>";
  ln "";
  ln "  #include <boost/metaparse/sequence.hpp>";
  ln "";
  ln "  using exp_parser4 = build_parser<sequence<token<int_>, token<lit_c<'+'>>, token<int_>>>;";
  ln "";
  ln "  #include <metashell/formatter.hpp>";
  ln "  ";
  ln "  using int_token = token<int_>;";
  ln "";
  ln "  using plus_token = token<lit_c<'+'>>;";
  ln "";
  ln "  using exp_parser5 = build_parser<sequence<int_token, plus_token, int_token>>;";
  ln "  #include <boost/metaparse/transform.hpp>";
  ln "";
  ln "  #include <boost/mpl/plus.hpp>";
  ln "";
  ln "  #include <boost/mpl/at.hpp>";
  ln "";
  ln "  template <class Vector> ";
  ln "   struct eval_plus : ";
  ln "     boost::mpl::plus< ";
  ln "       typename boost::mpl::at_c<Vector, 0>::type, ";
  ln "       typename boost::mpl::at_c<Vector, 2>::type ";
  ln "     > {};";
  ln "";
  ln "  #include <boost/mpl/quote.hpp>";
  ln "";
  ln "  using exp_parser6 = ";
  ln "   build_parser< ";
  ln "     transform< ";
  ln "       sequence<int_token, plus_token, int_token>, ";
  ln "       boost::mpl::quote1<eval_plus> ";
  ln "     > ";
  ln "   >;";
  ln "  #include <boost/metaparse/any.hpp>";
  ln "";
  ln "  using exp_parser7 = ";
  ln "   build_parser< ";
  ln "     sequence< ";
  ln "       int_token,                                /* The first <number> */ ";
  ln "       repeated<sequence<plus_token, int_token>> /* The ""+ <number>"" elements */ ";
  ln "     > ";
  ln "   >;";
  ln "  using temp_result = exp_parser7::apply<BOOST_METAPARSE_STRING(""1 + 2 + 3 + 4"")>::type;";
  ln "  #include <boost/mpl/fold.hpp>";
  ln "";
  ln "  using vector_of_numbers = ";
  ln "   boost::mpl::vector< ";
  ln "     boost::mpl::int_<2>, ";
  ln "     boost::mpl::int_<5>, ";
  ln "     boost::mpl::int_<6> ";
  ln "   >;";
  ln "";
  ln "  template <class Vector> ";
  ln "   struct sum_vector : ";
  ln "      boost::mpl::fold< ";
  ln "        Vector, ";
  ln "        boost::mpl::int_<0>, ";
  ln "        boost::mpl::lambda< ";
  ln "          boost::mpl::plus<boost::mpl::_1, boost::mpl::_2> ";
  ln "        >::type ";
  ln "      > ";
  ln "    {};";
  ln "";
  ln "  template <class Sum, class Item> ";
  ln "     struct sum_items : ";
  ln "       boost::mpl::plus< ";
  ln "         Sum, ";
  ln "         typename boost::mpl::at_c<Item, 1>::type ";
  ln "       > ";
  ln "   {};";
  ln "  using exp_parser8 = ";
  ln "   build_parser< ";
  ln "     sequence< ";
  ln "       int_token, /* parse the first <number> */ ";
  ln "       transform< ";
  ln "         repeated<sequence<plus_token, int_token>>, /* parse the ""+ <number>"" elements */ ";
  ln "         /* lambda expression summarising the ""+ <number>"" elements using fold */ ";
  ln "         boost::mpl::lambda< ";
  ln "           /* The folding expression we have just created */ ";
  ln "           boost::mpl::fold< ";
  ln "             boost::mpl::_1, /* the argument of the lambda expression, the result */ ";
  ln "                             /* of the repeated<...> parser */ ";
  ln "             boost::mpl::int_<0>, ";
  ln "             boost::mpl::quote2<sum_items> ";
  ln "           > ";
  ln "         >::type ";
  ln "       > ";
  ln "     > ";
  ln "   >;";
  ln "";
  ln "  using exp_parser9 = ";
  ln "   build_parser< ";
  ln "     transform< ";
  ln "       /* What we had so far */ ";
  ln "       sequence< ";
  ln "         int_token, ";
  ln "         transform< ";
  ln "           repeated<sequence<plus_token, int_token>>, ";
  ln "           boost::mpl::lambda< ";
  ln "             boost::mpl::fold< ";
  ln "               boost::mpl::_1, ";
  ln "               boost::mpl::int_<0>, ";
  ln "               boost::mpl::quote2<sum_items> ";
  ln "             > ";
  ln "           >::type ";
  ln "         > ";
  ln "       >, ";
  ln "       boost::mpl::quote1<sum_vector> /* summarise the vector of numbers */ ";
  ln "     > ";
  ln "   >;";
  ln "  #include <boost/metaparse/foldl.hpp>";
  ln "";
  ln "  using exp_parser10 = ";
  ln "   build_parser< ";
  ln "     transform< ";
  ln "       sequence< ";
  ln "         int_token, ";
  ln "         foldl< ";
  ln "           sequence<plus_token, int_token>, ";
  ln "           boost::mpl::int_<0>, ";
  ln "           boost::mpl::quote2<sum_items> ";
  ln "         > ";
  ln "       >, ";
  ln "       boost::mpl::quote1<sum_vector>> ";
  ln "   >;";
  ln "  #include <boost/metaparse/foldl_start_with_parser.hpp>";
  ln "";
  ln "  using exp_parser11 = ";
  ln "   build_parser< ";
  ln "     foldl_start_with_parser< ";
  ln "       sequence<plus_token, int_token>, /* apply this parser repeatedly */ ";
  ln "       int_token, /* use this parser to get the initial value */ ";
  ln "       boost::mpl::quote2<sum_items> /* use this function to add a new value to the summary */ ";
  ln "     > ";
  ln "   >;";
  ln "  using minus_token = token<lit_c<'-'>>;";
  ln "";
  ln "  #include <boost/metaparse/one_of.hpp>";
  ln "";
  ln "  using exp_parser12 = ";
  ln "   build_parser< ";
  ln "     foldl_start_with_parser< ";
  ln "       sequence<one_of<plus_token, minus_token>, int_token>, ";
  ln "       int_token, ";
  ln "       boost::mpl::quote2<sum_items> ";
  ln "     > ";
  ln "   >;";
  ln "  #include <boost/mpl/minus.hpp>";
  ln "";
  ln "  template <class L, char Op, class R> struct eval_binary_op;";
  ln "";
  ln "  template <class L, class R> struct eval_binary_op<L, '+', R> : boost::mpl::plus<L, R>::type {};";
  ln "";
  ln "  template <class L, class R> struct eval_binary_op<L, '-', R> : boost::mpl::minus<L, R>::type {};";
  ln "";
  ln "  template <class S, class Item> ";
  ln "   struct binary_op : ";
  ln "     eval_binary_op< ";
  ln "       S, ";
  ln "       boost::mpl::at_c<Item, 0>::type::value, ";
  ln "       typename boost::mpl::at_c<Item, 1>::type ";
  ln "     > ";
  ln "     {};";
  ln "";
  ln "  using exp_parser13 = ";
  ln "   build_parser< ";
  ln "     foldl_start_with_parser< ";
  ln "       sequence<one_of<plus_token, minus_token>, int_token>, ";
  ln "       int_token, ";
  ln "       boost::mpl::quote2<binary_op> ";
  ln "     > ";
  ln "   >;";
  ln "  #include <boost/mpl/times.hpp>";
  ln "";
  ln "  template <class L, class R> struct eval_binary_op<L, '*', R> : boost::mpl::times<L, R>::type {};";
  ln "";
  ln "  using times_token = token<lit_c<'*'>>;";
  ln "";
  ln "  using exp_parser14 = ";
  ln "   build_parser< ";
  ln "     foldl_start_with_parser< ";
  ln "       sequence<one_of<plus_token, minus_token, times_token>, int_token>, ";
  ln "       int_token, ";
  ln "       boost::mpl::quote2<binary_op> ";
  ln "     > ";
  ln "   >;";
  ln "  using mult_exp1 = foldl_start_with_parser<sequence<times_token, int_token>, int_token, boost::mpl::quote2<binary_op>>;";
  ln "";
  ln "  using exp_parser15 = ";
  ln "   build_parser< ";
  ln "     foldl_start_with_parser< ";
  ln "       sequence<one_of<plus_token, minus_token>, mult_exp1>, ";
  ln "       mult_exp1, ";
  ln "       boost::mpl::quote2<binary_op> ";
  ln "     > ";
  ln "   >;";
  ln "  #include <boost/mpl/divides.hpp>";
  ln "";
  ln "  template <class L, class R> struct eval_binary_op<L, '/', R> : boost::mpl::divides<L, R>::type {};";
  ln "";
  ln "  using divides_token = token<lit_c<'/'>>;";
  ln "";
  ln "  using mult_exp2 = ";
  ln "   foldl_start_with_parser< ";
  ln "     sequence<one_of<times_token, divides_token>, int_token>, ";
  ln "     int_token, ";
  ln "     boost::mpl::quote2<binary_op> ";
  ln "   >;";
  ln "";
  ln "  using exp_parser16 = ";
  ln "   build_parser< ";
  ln "     foldl_start_with_parser< ";
  ln "       sequence<one_of<plus_token, minus_token>, mult_exp2>, ";
  ln "       mult_exp2, ";
  ln "       boost::mpl::quote2<binary_op> ";
  ln "     > ";
  ln "   >;";
  ln "  template <class S, class Item> ";
  ln "   struct reverse_binary_op : ";
  ln "     eval_binary_op< ";
  ln "       typename boost::mpl::at_c<Item, 0>::type, ";
  ln "       boost::mpl::at_c<Item, 1>::type::value, ";
  ln "       S ";
  ln "     > ";
  ln "     {};";
  ln "";
  ln "  #include <boost/metaparse/foldr_start_with_parser.hpp>";
  ln "";
  ln "  using mult_exp3 = ";
  ln "   foldr_start_with_parser< ";
  ln "     sequence<int_token, one_of<times_token, divides_token>>, /* The parser applied repeatedly */ ";
  ln "     int_token, /* The parser parsing the last number */ ";
  ln "     boost::mpl::quote2<reverse_binary_op> /* The function called for every result */ ";
  ln "                                           /* of applying the above parser */ ";
  ln "   >;";
  ln "";
  ln "  using exp_parser17 = ";
  ln "   build_parser< ";
  ln "     foldl_start_with_parser< ";
  ln "       sequence<one_of<plus_token, minus_token>, mult_exp3>, ";
  ln "       mult_exp3, ";
  ln "       boost::mpl::quote2<binary_op> ";
  ln "     > ";
  ln "   >;";
  ln "  #include <boost/mpl/negate.hpp>";
  ln "";
  ln "  using unary_exp1 = ";
  ln "   foldr_start_with_parser< ";
  ln "     minus_token, ";
  ln "     int_token, ";
  ln "     boost::mpl::lambda<boost::mpl::negate<boost::mpl::_1>>::type ";
  ln "   >;";
  ln "";
  ln "  using mult_exp4 = ";
  ln "   foldl_start_with_parser< ";
  ln "     sequence<one_of<times_token, divides_token>, unary_exp1>, ";
  ln "     unary_exp1, ";
  ln "     boost::mpl::quote2<binary_op> ";
  ln "   >;";
  ln "";
  ln "  using exp_parser18 = ";
  ln "   build_parser< ";
  ln "     foldl_start_with_parser< ";
  ln "       sequence<one_of<plus_token, minus_token>, mult_exp4>, ";
  ln "       mult_exp4, ";
  ln "       boost::mpl::quote2<binary_op> ";
  ln "     > ";
  ln "   >;";
  ln ""].

(** doc/before_11.qbk *)
Definition pages_1 : list str := [
  ln "[#before_11]";
  ln "['Definitions before section 11.]";
  ln "";
  ln "  #include <boost/metaparse/string.hpp>";
  ln "  #include <boost/metaparse/int_.hpp>";
  ln "";
  ln "  #include <boost/metaparse/build_parser.hpp>";
  ln "";
  ln "  using namespace boost::metaparse;";
  ln "";
  ln "  using exp_parser1 = build_parser<int_>;";
  ln "  #include <boost/metaparse/entire_input.hpp>";
  ln "";
  ln "  using exp_parser2 = build_parser<entire_input<int_>>;";
  ln "  #include <boost/metaparse/token.hpp>";
  ln "";
  ln "  using exp_parser3 = build_parser<entire_input<token<int_>>>;";
  ln "  #include <boost/metaparse/lit_c.hpp>";
  ln "";
  ln "  #include <boost/metaparse/sequence.hpp>";
  ln "";
  ln "  using exp_parser4 = build_parser<sequence<token<int_>, token<lit_c<'+'>>, token<int_>>>;";
  ln "";
  ln "  #include <metashell/formatter.hpp>";
  ln "  ";
  ln "  using int_token = token<int_>;";
  ln "";
  ln "  using plus_token = token<lit_c<'+'>>;";
  ln "";
  ln "  using exp_parser5 = build_parser<sequence<int_token, plus_token, int_token>>;";
  ln "  #include <boost/metaparse/transform.hpp>";
  ln "";
  ln "  #include <boost/mpl/plus.hpp>";
  ln "";
  ln "  #include <boost/mpl/at.hpp>";
  ln "";
  ln "  template <class Vector> ";
  ln "   struct eval_plus : ";
  ln "     boost::mpl::plus< ";
  ln "       typename boost::mpl::at_c<Vector, 0>::type, ";
  ln "       typename boost::mpl::at_c<Vector, 2>::type ";
  ln "     > {};";
  ln "";
  ln "  #include <boost/mpl/quote.hpp>";
  ln "";
  ln "  using exp_parser6 = ";
  ln "   build_parser< ";
  ln "     transform< ";
  ln "       sequence<int_token, plus_token, int_token>, ";
  ln "       boost::mpl::quote1<eval_plus> ";
  ln "     > ";
  ln "   >;";
  ln "  #include <boost/metaparse/any.hpp>";
  ln "";
  ln "  using exp_parser7 = ";
  ln "   build_parser< ";
  ln "     sequence< ";
  ln "       int_token,                                /* The first <number> */ ";
  ln "       repeated<sequence<plus_token, int_token>> /* The ""+ <number>"" elements */ ";
  ln "     > ";
  ln "   >;";
  ln "  using temp_result = exp_parser7::apply<BOOST_METAPARSE_STRING(""1 + 2 + 3 + 4"")>::type;";
  ln "  #include <boost/mpl/fold.hpp>";
  ln "";
  ln "  using vector_of_numbers = ";
  ln "   boost::mpl::vector< ";
  ln "     boost::mpl::int_<2>, ";
  ln "     boost::mpl::int_<5>, ";
  ln "     boost::mpl::int_<6> ";
  ln "   >;";
  ln "";
  ln "  template <class Vector> ";
  ln "   struct sum_vector : ";
  ln "      boost::mpl::fold< ";
  ln "        Vector, ";
  ln "        boost::mpl::int_<0>, ";
  ln "        boost::mpl::lambda< ";
  ln "          boost::mpl::plus<boost::mpl::_1, boost::mpl::_2> ";
  ln "        >::type ";
  ln "      > ";
  ln "    {};";
  ln "";
  ln "  template <class Sum, class Item> ";
  ln "     struct sum_items : ";
  ln "       boost::mpl::plus< ";
  ln "         Sum, ";
  ln "         typename boost::mpl::at_c<Item, 1>::type ";
  ln "       > ";
  ln "   {};";
  ln "  using exp_parser8 = ";
  ln "   build_parser< ";
  ln "     sequence< ";
  ln "       int_token, /* parse the first <number> */ ";
  ln "       transform< ";
  ln "         repeated<sequence<plus_token, int_token>>, /* parse the ""+ <number>"" elements */ ";
  ln "         /* lambda expression summarising the ""+ <number>"" elements using fold */ ";
  ln "         boost::mpl::lambda< ";
  ln "           /* The folding expression we have just created */ ";
  ln "           boost::mpl::fold< ";
  ln "             boost::mpl::_1, /* the argument of the lambda expression, the result */ ";
  ln "                             /* of the repeated<...> parser */ ";
  ln "             boost::mpl::int_<0>, ";
  ln "             boost::mpl::quote2<sum_items> ";
  ln "           > ";
  ln "         >::type ";
  ln "       > ";
  ln "     > ";
  ln "   >;";
  ln "";
  ln "  using exp_parser9 = ";
  ln "   build_parser< ";
  ln "     transform< ";
  ln "       /* What we had so far */ ";
  ln "       sequence< ";
  ln "         int_token, ";
  ln "         transform< ";
  ln "           repeated<sequence<plus_token, int_token>>, ";
  ln "           boost::mpl::lambda< ";
  ln "             boost::mpl::fold< ";
  ln "               boost::mpl::_1, ";
  ln "               boost::mpl::int_<0>, ";
  ln "               boost::mpl::quote2<sum_items> ";
  ln "             > ";
  ln "           >::type ";
  ln "         > ";
  ln "       >, ";
  ln "       boost::mpl::quote1<sum_vector> /* summarise the vector of numbers */ ";
  ln "     > ";
  ln "   >;";
  ln "  #include <boost/metaparse/foldl.hpp>";
  ln "";
  ln "  using exp_parser10 = ";
  ln "   build_parser< ";
  ln "     transform< ";
  ln "       sequence< ";
  ln "         int_token, ";
  ln "         foldl< ";
  ln "           sequence<plus_token, int_token>, ";
  ln "           boost::mpl::int_<0>, ";
  ln "           boost::mpl::quote2<sum_items> ";
  ln "         > ";
  ln "       >, ";
  ln "       boost::mpl::quote1<sum_vector>> ";
  ln "   >;";
  ln "  #include <boost/metaparse/foldl_start_with_parser.hpp>";
  ln "";
  ln "  using exp_parser11 = ";
  ln "   build_parser< ";
  ln "     foldl_start_with_parser< ";
  ln "       sequence<plus_token, int_token>, /* apply this parser repeatedly */ ";
  ln "       int_token, /* use this parser to get the initial value */ ";
  ln "       boost::mpl::quote2<sum_items> /* use this function to add a new value to the summary */ ";
  ln "     > ";
  ln "   >;";
  ln "  using minus_token = token<lit_c<'-'>>;";
  ln "";
  ln "  #include <boost/metaparse/one_of.hpp>";
  ln "";
  ln "  using exp_parser12 = ";
  ln "   build_parser< ";
  ln "     foldl_start_with_parser< ";
  ln "       sequence<one_of<plus_token, minus_token>, int_token>, ";
  ln "       int_token, ";
  ln "       boost::mpl::quote2<sum_items> ";
  ln "     > ";
  ln "   >;";
  ln "  #include <boost/mpl/minus.hpp>";
  ln "";
  ln "  template <class L, char Op, class R> struct eval_binary_op;";
  ln "";
  ln "  template <class L, class R> struct eval_binary_op<L, '+', R> : boost::mpl::plus<L, R>::type {};";
  ln "";
  ln "  template <class L, class R> struct eval_binary_op<L, '-', R> : boost::mpl::minus<L, R>::type {};";
  ln "";
  ln "  template <class S, class Item> ";
  ln "   struct binary_op : ";
  ln "     eval_binary_op< ";
  ln "       S, ";
  ln "       boost::mpl::at_c<Item, 0>::type::value, ";
  ln "       typename boost::mpl::at_c<Item, 1>::type ";
  ln "     > ";
  ln "     {};";
  ln "";
  ln "  using exp_parser13 = ";
  ln "   build_parser< ";
  ln "     foldl_start_with_parser< ";
  ln "       sequence<one_of<plus_token, minus_token>, int_token>, ";
  ln "       int_token, ";
  ln "       boost::mpl::quote2<binary_op> ";
  ln "     > ";
  ln "   >;";
  ln "  #include <boost/mpl/times.hpp>";
  ln "";
  ln "  template <class L, class R> struct eval_binary_op<L, '*', R> : boost::mpl::times<L, R>::type {};";
  ln "";
  ln "  using times_token = token<lit_c<'*'>>;";
  ln "";
  ln "  using exp_parser14 = ";
  ln "   build_parser< ";
  ln "     foldl_start_with_parser< ";
  ln "       sequence<one_of<plus_token, minus_token, times_token>, int_token>, ";
  ln "       int_token, ";
  ln "       boost::mpl::quote2<binary_op> ";
  ln "     > ";
  ln "   >;";
  ln "  using mult_exp1 = foldl_start_with_parser<sequence<times_token, int_token>, int_token, boost::mpl::quote2<binary_op>>;";
  ln "";
  ln "  using exp_parser15 = ";
  ln "   build_parser< ";
  ln "     foldl_start_with_parser< ";
  ln "       sequence<one_of<plus_token, minus_token>, mult_exp1>, ";
  ln "       mult_exp1, ";
  ln "       boost::mpl::quote2<binary_op> ";
  ln "     > ";
  ln "   >;";
  ln "  #include <boost/mpl/divides.hpp>";
  ln "";
  ln "  template <class L, class R> struct eval_binary_op<L, '/', R> : boost::mpl::divides<L, R>::type {};";
  ln "";
  ln "  using divides_token = token<lit_c<'/'>>;";
  ln "";
  ln "  using mult_exp2 = ";
  ln "   foldl_start_with_parser< ";
  ln "     sequence<one_of<times_token, divides_token>, int_token>, ";
  ln "     int_token, ";
  ln "     boost::mpl::quote2<binary_op> ";
  ln "   >;";
  ln "";
  ln "  using exp_parser16 = ";
  ln "   build_parser< ";
  ln "     foldl_start_with_parser< ";
  ln "       sequence<one_of<plus_token, minus_token>, mult_exp2>, ";
  ln "       mult_exp2, ";
  ln "       boost::mpl::quote2<binary_op> ";
  ln "     > ";
  ln "   >;";
  ln "  template <class S, class Item> ";
  ln "   struct reverse_binary_op : ";
  ln "     eval_binary_op< ";
  ln "       typename boost::mpl::at_c<Item, 0>::type, ";
  ln "       boost::mpl::at_c<Item, 1>::type::value, ";
  ln "       S ";
  ln "     > ";
  ln "     {};";
  ln "";
  ln "  #include <boost/metaparse/foldr_start_with_parser.hpp>";
  ln "";
  ln "  using mult_exp3 = ";
  ln "   foldr_start_with_parser< ";
  ln "     sequence<int_token, one_of<times_token, divides_token>>, /* The parser applied repeatedly */ ";
  ln "     int_token, /* The parser parsing the last number */ ";
  ln "     boost::mpl::quote2<reverse_binary_op> /* The function called for every result */ ";
  ln "                                           /* of applying the above parser */ ";
  ln "   >;";
  ln "";
  ln "  using exp_parser17 = ";
  ln "   build_parser< ";
  ln "     foldl_start_with_parser< ";
  ln "       sequence<one_of<plus_token, minus_token>, mult_exp3>, ";
  ln "       mult_exp3, ";
  ln "       boost::mpl::quote2<binary_op> ";
  ln "     > ";
  ln "   >;";
  ln "  #include <boost/mpl/negate.hpp>";
  ln "";
  ln "  using unary_exp1 = ";
  ln "   foldr_start_with_parser< ";
  ln "     minus_token, ";
  ln "     int_token, ";
  ln "     boost::mpl::lambda<boost::mpl::negate<boost::mpl::_1>>::type ";
  ln "   >;";
  ln "";
  ln "  using mult_exp4 = ";
  ln "   foldl_start_with_parser< ";
  ln "     sequence<one_of<times_token, divides_token>, unary_exp1>, ";
  ln "     unary_exp1, ";
  ln "     boost::mpl::quote2<binary_op> ";
  ln "   >;";
  ln "";
  ln "  using exp_parser18 = ";
  ln "   build_parser< ";
  ln "     foldl_start_with_parser< ";
  ln "       sequence<one_of<plus_token, minus_token>, mult_exp4>, ";
  ln "       mult_exp4, ";
  ln "       boost::mpl::quote2<binary_op> ";
  ln "     > ";
  ln "   >;";
  ln "  using lparen_token = token<lit_c<'('>>;";
  ln "";
  ln "  using rparen_token = token<lit_c<')'>>;";
  ln "";
  ln "  using plus_exp1 = ";
  ln "   foldl_start_with_parser< ";
  ln "     sequence<one_of<plus_token, minus_token>, mult_exp4>, ";
  ln "     mult_exp4, ";
  ln "     boost::mpl::quote2<binary_op> ";
  ln "   >;";
  ln "";
  ln "  using paren_exp1 = sequence<lparen_token, plus_exp1, rparen_token>;";
  ln "";
  ln "  #include <boost/metaparse/middle_of.hpp>";
  ln "";
  ln "  using paren_exp2 = middle_of<lparen_token, plus_exp1, rparen_token>;";
  ln "";
  ln "  using primary_exp1 = one_of<int_token, paren_exp2>;";
  ln "";
  ln "  struct plus_exp2;";
  ln "";
  ln "  using paren_exp3 = middle_of<lparen_token, plus_exp2, rparen_token>;";
  ln "";
  ln "  using primary_exp2 = one_of<int_token, paren_exp2>;";
  ln "";
  ln "  using unary_exp2 = ";
  ln "   foldr_start_with_parser< ";
  ln "     minus_token, ";
  ln "     primary_exp2, ";
  ln "     boost::mpl::lambda<boost::mpl::negate<boost::mpl::_1>>::type ";
  ln "   >;";
  ln "";
  ln "  using mult_exp5 = ";
  ln "   foldl_start_with_parser< ";
  ln "     sequence<one_of<times_token, divides_token>, unary_exp2>, ";
  ln "     unary_exp2, ";
  ln "     boost::mpl::quote2<binary_op> ";
  ln "   >;";
  ln "";
  ln "  struct plus_exp2 : ";
  ln "   foldl_start_with_parser< ";
  ln "     sequence<one_of<plus_token, minus_token>, mult_exp5>, ";
  ln "     mult_exp5, ";
  ln "     boost::mpl::quote2<binary_op> ";
  ln "   > {};";
  ln "";
  ln "  using exp_parser19 = build_parser<plus_exp2>;";
  ln ""].

(** doc/before_11_1.qbk *)
Definition pages_2 : list str := [
  ln "[#before_11_1]";
  ln "['Definitions before section 11.1.]";
  ln "";
  ln "  #include <boost/metaparse/string.hpp>";
  ln "  #include <boost/metaparse/int_.hpp>";
  ln "";
  ln "  #include <boost/metaparse/build_parser.hpp>";
  ln "";
  ln "  using namespace boost::metaparse;";
  ln "";
  ln "  using exp_parser1 = build_parser<int_>;";
  ln "  #include <boost/metaparse/entire_input.hpp>";
  ln "";
  ln "  using exp_parser2 = build_parser<entire_input<int_>>;";
  ln "  #include <boost/metaparse/token.hpp>";
  ln "";
  ln "  using exp_parser3 = build_parser<entire_input<token<int_>>>;";
  ln "  #include <boost/metaparse/lit_c.hpp>";
  ln "";
  ln "  #include <boost/metaparse/sequence.hpp>";
  ln "";
  ln "  using exp_parser4 = build_parser<sequence<token<int_>, token<lit_c<'+'>>, token<int_>>>;";
  ln "";
  ln "  #include <metashell/formatter.hpp>";
  ln "  ";
  ln "  using int_token = token<int_>;";
  ln "";
  ln "  using plus_token = token<lit_c<'+'>>;";
  ln "";
  ln "  using exp_parser5 = build_parser<sequence<int_token, plus_token, int_token>>;";
  ln "  #include <boost/metaparse/transform.hpp>";
  ln "";
  ln "  #include <boost/mpl/plus.hpp>";
  ln "";
  ln "  #include <boost/mpl/at.hpp>";
  ln "";
  ln "  template <class Vector> ";
  ln "   struct eval_plus : ";
  ln "     boost::mpl::plus< ";
  ln "       typename boost::mpl::at_c<Vector, 0>::type, ";
  ln "       typename boost::mpl::at_c<Vector, 2>::type ";
  ln "     > {};";
  ln "";
  ln "  #include <boost/mpl/quote.hpp>";
  ln "";
  ln "  using exp_parser6 = ";
  ln "   build_parser< ";
  ln "     transform< ";
  ln "       sequence<int_token, plus_token, int_token>, ";
  ln "       boost::mpl::quote1<eval_plus> ";
  ln "     > ";
  ln "   >;";
  ln "  #include <boost/metaparse/any.hpp>";
  ln "";
  ln "  using exp_parser7 = ";
  ln "   build_parser< ";
  ln "     sequence< ";
  ln "       int_token,                                /* The first <number> */ ";
  ln "       repeated<sequence<plus_token, int_token>> /* The ""+ <number>"" elements */ ";
  ln "     > ";
  ln "   >;";
  ln "  using temp_result = exp_parser7::apply<BOOST_METAPARSE_STRING(""1 + 2 + 3 + 4"")>::type;";
  ln "  #include <boost/mpl/fold.hpp>";
  ln "";
  ln "  using vector_of_numbers = ";
  ln "   boost::mpl::vector< ";
  ln "     boost::mpl::int_<2>, ";
  ln "     boost::mpl::int_<5>, ";
  ln "     boost::mpl::int_<6> ";
  ln "   >;";
  ln "";
  ln "  template <class Vector> ";
  ln "   struct sum_vector : ";
  ln "      boost::mpl::fold< ";
  ln "        Vector, ";
  ln "        boost::mpl::int_<0>, ";
  ln "        boost::mpl::lambda< ";
  ln "          boost::mpl::plus<boost::mpl::_1, boost::mpl::_2> ";
  ln "        >::type ";
  ln "      > ";
  ln "    {};";
  ln "";
  ln "  template <class Sum, class Item> ";
  ln "     struct sum_items : ";
  ln "       boost::mpl::plus< ";
  ln "         Sum, ";
  ln "         typename boost::mpl::at_c<Item, 1>::type ";
  ln "       > ";
  ln "   {};";
  ln "  using exp_parser8 = ";
  ln "   build_parser< ";
  ln "     sequence< ";
  ln "       int_token, /* parse the first <number> */ ";
  ln "       transform< ";
  ln "         repeated<sequence<plus_token, int_token>>, /* parse the ""+ <number>"" elements */ ";
  ln "         /* lambda expression summarising the ""+ <number>"" elements using fold */ ";
  ln "         boost::mpl::lambda< ";
  ln "           /* The folding expression we have just created */ ";
  ln "           boost::mpl::fold< ";
  ln "             boost::mpl::_1, /* the argument of the lambda expression, the result */ ";
  ln "                             /* of the repeated<...> parser */ ";
  ln "             boost::mpl::int_<0>, ";
  ln "             boost::mpl::quote2<sum_items> ";
  ln "           > ";
  ln "         >::type ";
  ln "       > ";
  ln "     > ";
  ln "   >;";
  ln "";
  ln "  using exp_parser9 = ";
  ln "   build_parser< ";
  ln "     transform< ";
  ln "       /* What we had so far */ ";
  ln "       sequence< ";
  ln "         int_token, ";
  ln "         transform< ";
  ln "           repeated<sequence<plus_token, int_token>>, ";
  ln "           boost::mpl::lambda< ";
  ln "             boost::mpl::fold< ";
  ln "               boost::mpl::_1, ";
  ln "               boost::mpl::int_<0>, ";
  ln "               boost::mpl::quote2<sum_items> ";
  ln "             > ";
  ln "           >::type ";
  ln "         > ";
  ln "       >, ";
  ln "       boost::mpl::quote1<sum_vector> /* summarise the vector of numbers */ ";
  ln "     > ";
  ln "   >;";
  ln "  #include <boost/metaparse/foldl.hpp>";
  ln "";
  ln "  using exp_parser10 = ";
  ln "   build_parser< ";
  ln "     transform< ";
  ln "       sequence< ";
  ln "         int_token, ";
  ln "         foldl< ";
  ln "           sequence<plus_token, int_token>, ";
  ln "           boost::mpl::int_<0>, ";
  ln "           boost::mpl::quote2<sum_items> ";
  ln "         > ";
  ln "       >, ";
  ln "       boost::mpl::quote1<sum_vector>> ";
  ln "   >;";
  ln "  #include <boost/metaparse/foldl_start_with_parser.hpp>";
  ln "";
  ln "  using exp_parser11 = ";
  ln "   build_parser< ";
  ln "     foldl_start_with_parser< ";
  ln "       sequence<plus_token, int_token>, /* apply this parser repeatedly */ ";
  ln "       int_token, /* use this parser to get the initial value */ ";
  ln "       boost::mpl::quote2<sum_items> /* use this function to add a new value to the summary */ ";
  ln "     > ";
  ln "   >;";
  ln "  using minus_token = token<lit_c<'-'>>;";
  ln "";
  ln "  #include <boost/metaparse/one_of.hpp>";
  ln "";
  ln "  using exp_parser12 = ";
  ln "   build_parser< ";
  ln "     foldl_start_with_parser< ";
  ln "       sequence<one_of<plus_token, minus_token>, int_token>, ";
  ln "       int_token, ";
  ln "       boost::mpl::quote2<sum_items> ";
  ln "     > ";
  ln "   >;";
  ln "  #include <boost/mpl/minus.hpp>";
  ln "";
  ln "  template <class L, char Op, class R> struct eval_binary_op;";
  ln "";
  ln "  template <class L, class R> struct eval_binary_op<L, '+', R> : boost::mpl::plus<L, R>::type {};";
  ln "";
  ln "  template <class L, class R> struct eval_binary_op<L, '-', R> : boost::mpl::minus<L, R>::type {};";
  ln "";
  ln "  template <class S, class Item> ";
  ln "   struct binary_op : ";
  ln "     eval_binary_op< ";
  ln "       S, ";
  ln "       boost::mpl::at_c<Item, 0>::type::value, ";
  ln "       typename boost::mpl::at_c<Item, 1>::type ";
  ln "     > ";
  ln "     {};";
  ln "";
  ln "  using exp_parser13 = ";
  ln "   build_parser< ";
  ln "     foldl_start_with_parser< ";
  ln "       sequence<one_of<plus_token, minus_token>, int_token>, ";
  ln "       int_token, ";
  ln "       boost::mpl::quote2<binary_op> ";
  ln "     > ";
  ln "   >;";
  ln "  #include <boost/mpl/times.hpp>";
  ln "";
  ln "  template <class L, class R> struct eval_binary_op<L, '*', R> : boost::mpl::times<L, R>::type {};";
  ln "";
  ln "  using times_token = token<lit_c<'*'>>;";
  ln "";
  ln "  using exp_parser14 = ";
  ln "   build_parser< ";
  ln "     foldl_start_with_parser< ";
  ln "       sequence<one_of<plus_token, minus_token, times_token>, int_token>, ";
  ln "       int_token, ";
  ln "       boost::mpl::quote2<binary_op> ";
  ln "     > ";
  ln "   >;";
  ln "  using mult_exp1 = foldl_start_with_parser<sequence<times_token, int_token>, int_token, boost::mpl::quote2<binary_op>>;";
  ln "";
  ln "  using exp_parser15 = ";
  ln "   build_parser< ";
  ln "     foldl_start_with_parser< ";
  ln "       sequence<one_of<plus_token, minus_token>, mult_exp1>, ";
  ln "       mult_exp1, ";
  ln "       boost::mpl::quote2<binary_op> ";
  ln "     > ";
  ln "   >;";
  ln "  #include <boost/mpl/divides.hpp>";
  ln "";
  ln "  template <class L, class R> struct eval_binary_op<L, '/', R> : boost::mpl::divides<L, R>::type {};";
  ln "";
  ln "  using divides_token = token<lit_c<'/'>>;";
  ln "";
  ln "  using mult_exp2 = ";
  ln "   foldl_start_with_parser< ";
  ln "     sequence<one_of<times_token, divides_token>, int_token>, ";
  ln "     int_token, ";
  ln "     boost::mpl::quote2<binary_op> ";
  ln "   >;";
  ln "";
  ln "  using exp_parser16 = ";
  ln "   build_parser< ";
  ln "     foldl_start_with_parser< ";
  ln "       sequence<one_of<plus_token, minus_token>, mult_exp2>, ";
  ln "       mult_exp2, ";
  ln "       boost::mpl::quote2<binary_op> ";
  ln "     > ";
  ln "   >;";
  ln "  template <class S, class Item> ";
  ln "   struct reverse_binary_op : ";
  ln "     eval_binary_op< ";
  ln "       typename boost::mpl::at_c<Item, 0>::type, ";
  ln "       boost::mpl::at_c<Item, 1>::type::value, ";
  ln "       S ";
  ln "     > ";
  ln "     {};";
  ln "";
  ln "  #include <boost/metaparse/foldr_start_with_parser.hpp>";
  ln "";
  ln "  using mult_exp3 = ";
  ln "   foldr_start_with_parser< ";
  ln "     sequence<int_token, one_of<times_token, divides_token>>, /* The parser applied repeatedly */ ";
  ln "     int_token, /* The parser parsing the last number */ ";
  ln "     boost::mpl::quote2<reverse_binary_op> /* The function called for every result */ ";
  ln "                                           /* of applying the above parser */ ";
  ln "   >;";
  ln "";
  ln "  using exp_parser17 = ";
  ln "   build_parser< ";
  ln "     foldl_start_with_parser< ";
  ln "       sequence<one_of<plus_token, minus_token>, mult_exp3>, ";
  ln "       mult_exp3, ";
  ln "       boost::mpl::quote2<binary_op> ";
  ln "     > ";
  ln "   >;";
  ln "  #include <boost/mpl/negate.hpp>";
  ln "";
  ln "  using unary_exp1 = ";
  ln "   foldr_start_with_parser< ";
  ln "     minus_token, ";
  ln "     int_token, ";
  ln "     boost::mpl::lambda<boost::mpl::negate<boost::mpl::_1>>::type ";
  ln "   >;";
  ln "";
  ln "  using mult_exp4 = ";
  ln "   foldl_start_with_parser< ";
  ln "     sequence<one_of<times_token, divides_token>, unary_exp1>, ";
  ln "     unary_exp1, ";
  ln "     boost::mpl::quote2<binary_op> ";
  ln "   >;";
  ln "";
  ln "  using exp_parser18 = ";
  ln "   build_parser< ";
  ln "     foldl_start_with_parser< ";
  ln "       sequence<one_of<plus_token, minus_token>, mult_exp4>, ";
  ln "       mult_exp4, ";
  ln "       boost::mpl::quote2<binary_op> ";
  ln "     > ";
  ln "   >;";
  ln "  using lparen_token = token<lit_c<'('>>;";
  ln "";
  ln "  using rparen_token = token<lit_c<')'>>;";
  ln "";
  ln "  using plus_exp1 = ";
  ln "   foldl_start_with_parser< ";
  ln "     sequence<one_of<plus_token, minus_token>, mult_exp4>, ";
  ln "     mult_exp4, ";
  ln "     boost::mpl::quote2<binary_op> ";
  ln "   >;";
  ln "";
  ln "  using paren_exp1 = sequence<lparen_token, plus_exp1, rparen_token>;";
  ln "";
  ln "  #include <boost/metaparse/middle_of.hpp>";
  ln "";
  ln "  using paren_exp2 = middle_of<lparen_token, plus_exp1, rparen_token>;";
  ln "";
  ln "  using primary_exp1 = one_of<int_token, paren_exp2>;";
  ln "";
  ln "  struct plus_exp2;";
  ln "";
  ln "  using paren_exp3 = middle_of<lparen_token, plus_exp2, rparen_token>;";
  ln "";
  ln "  using primary_exp2 = one_of<int_token, paren_exp2>;";
  ln "";
  ln "  using unary_exp2 = ";
  ln "   foldr_start_with_parser< ";
  ln "     minus_token, ";
  ln "     primary_exp2, ";
  ln "     boost::mpl::lambda<boost::mpl::negate<boost::mpl::_1>>::type ";
  ln "   >;";
  ln "";
  ln "  using mult_exp5 = ";
  ln "   foldl_start_with_parser< ";
  ln "     sequence<one_of<times_token, divides_token>, unary_exp2>, ";
  ln "     unary_exp2, ";
  ln "     boost::mpl::quote2<binary_op> ";
  ln "   >;";
  ln "";
  ln "  struct plus_exp2 : ";
  ln "   foldl_start_with_parser< ";
  ln "     sequence<one_of<plus_token, minus_token>, mult_exp5>, ";
  ln "     mult_exp5, ";
  ln "     boost::mpl::quote2<binary_op> ";
  ln "   > {};";
  ln "";
  ln "  using exp_parser19 = build_parser<plus_exp2>;";
  ln ""].

(** doc/before_11_2.qbk *)
Definition pages_3 : list str := [
  ln "[#before_11_2]";
  ln "['Definitions before section 11.2.]";
  ln "";
  ln "  #include <boost/metaparse/string.hpp>";
  ln "  #include <boost/metaparse/int_.hpp>";
  ln "";
  ln "  #include <boost/metaparse/build_parser.hpp>";
  ln "";
  ln "  using namespace boost::metaparse;";
  ln "";
  ln "  using exp_parser1 = build_parser<int_>;";
  ln "  #include <boost/metaparse/entire_input.hpp>";
  ln "";
  ln "  using exp_parser2 = build_parser<entire_input<int_>>;";
  ln "  #include <boost/metaparse/token.hpp>";
  ln "";
  ln "  using exp_parser3 = build_parser<entire_input<token<int_>>>;";
  ln "  #include <boost/metaparse/lit_c.hpp>";
  ln "";
  ln "  #include <boost/metaparse/sequence.hpp>";
  ln "";
  ln "  using exp_parser4 = build_parser<sequence<token<int_>, token<lit_c<'+'>>, token<int_>>>;";
  ln "";
  ln "  #include <metashell/formatter.hpp>";
  ln "  ";
  ln "  using int_token = token<int_>;";
  ln "";
  ln "  using plus_token = token<lit_c<'+'>>;";
  ln "";
  ln "  using exp_parser5 = build_parser<sequence<int_token, plus_token, int_token>>;";
  ln "  #include <boost/metaparse/transform.hpp>";
  ln "";
  ln "  #include <boost/mpl/plus.hpp>";
  ln "";
  ln "  #include <boost/mpl/at.hpp>";
  ln "";
  ln "  template <class Vector> ";
  ln "   struct eval_plus : ";
  ln "     boost::mpl::plus< ";
  ln "       typename boost::mpl::at_c<Vector, 0>::type, ";
  ln "       typename boost::mpl::at_c<Vector, 2>::type ";
  ln "     > {};";
  ln "";
  ln "  #include <boost/mpl/quote.hpp>";
  ln "";
  ln "  using exp_parser6 = ";
  ln "   build_parser< ";
  ln "     transform< ";
  ln "       sequence<int_token, plus_token, int_token>, ";
  ln "       boost::mpl::quote1<eval_plus> ";
  ln "     > ";
  ln "   >;";
  ln "  #include <boost/metaparse/any.hpp>";
  ln "";
  ln "  using exp_parser7 = ";
  ln "   build_parser< ";
  ln "     sequence< ";
  ln "       int_token,                                /* The first <number> */ ";
  ln "       repeated<sequence<plus_token, int_token>> /* The ""+ <number>"" elements */ ";
  ln "     > ";
  ln "   >;";
  ln "  using temp_result = exp_parser7::apply<BOOST_METAPARSE_STRING(""1 + 2 + 3 + 4"")>::type;";
  ln "  #include <boost/mpl/fold.hpp>";
  ln "";
  ln "  using vector_of_numbers = ";
  ln "   boost::mpl::vector< ";
  ln "     boost::mpl::int_<2>, ";
  ln "     boost::mpl::int_<5>, ";
  ln "     boost::mpl::int_<6> ";
  ln "   >;";
  ln "";
  ln "  template <class Vector> ";
  ln "   struct sum_vector : ";
  ln "      boost::mpl::fold< ";
  ln "        Vector, ";
  ln "        boost::mpl::int_<0>, ";
  ln "        boost::mpl::lambda< ";
  ln "          boost::mpl::plus<boost::mpl::_1, boost::mpl::_2> ";
  ln "        >::type ";
  ln "      > ";
  ln "    {};";
  ln "";
  ln "  template <class Sum, class Item> ";
  ln "     struct sum_items : ";
  ln "       boost::mpl::plus< ";
  ln "         Sum, ";
  ln "         typename boost::mpl::at_c<Item, 1>::type ";
  ln "       > ";
  ln "   {};";
  ln "  using exp_parser8 = ";
  ln "   build_parser< ";
  ln "     sequence< ";
  ln "       int_token, /* parse the first <number> */ ";
  ln "       transform< ";
  ln "         repeated<sequence<plus_token, int_token>>, /* parse the ""+ <number>"" elements */ ";
  ln "         /* lambda expression summarising the ""+ <number>"" elements using fold */ ";
  ln "         boost::mpl::lambda< ";
  ln "           /* The folding expression we have just created */ ";
  ln "           boost::mpl::fold< ";
  ln "             boost::mpl::_1, /* the argument of the lambda expression, the result */ ";
  ln "                             /* of the repeated<...> parser */ ";
  ln "             boost::mpl::int_<0>, ";
  ln "             boost::mpl::quote2<sum_items> ";
  ln "           > ";
  ln "         >::type ";
  ln "       > ";
  ln "     > ";
  ln "   >;";
  ln "";
  ln "  using exp_parser9 = ";
  ln "   build_parser< ";
  ln "     transform< ";
  ln "       /* What we had so far */ ";
  ln "       sequence< ";
  ln "         int_token, ";
  ln "         transform< ";
  ln "           repeated<sequence<plus_token, int_token>>, ";
  ln "           boost::mpl::lambda< ";
  ln "             boost::mpl::fold< ";
  ln "               boost::mpl::_1, ";
  ln "               boost::mpl::int_<0>, ";
  ln "               boost::mpl::quote2<sum_items> ";
  ln "             > ";
  ln "           >::type ";
  ln "         > ";
  ln "       >, ";
  ln "       boost::mpl::quote1<sum_vector> /* summarise the vector of numbers */ ";
  ln "     > ";
  ln "   >;";
  ln "  #include <boost/metaparse/foldl.hpp>";
  ln "";
  ln "  using exp_parser10 = ";
  ln "   build_parser< ";
  ln "     transform< ";
  ln "       sequence< ";
  ln "         int_token, ";
  ln "         foldl< ";
  ln "           sequence<plus_token, int_token>, ";
  ln "           boost::mpl::int_<0>, ";
  ln "           boost::mpl::quote2<sum_items> ";
  ln "         > ";
  ln "       >, ";
  ln "       boost::mpl::quote1<sum_vector>> ";
  ln "   >;";
  ln "  #include <boost/metaparse/foldl_start_with_parser.hpp>";
  ln "";
  ln "  using exp_parser11 = ";
  ln "   build_parser< ";
  ln "     foldl_start_with_parser< ";
  ln "       sequence<plus_token, int_token>, /* apply this parser repeatedly */ ";
  ln "       int_token, /* use this parser to get the initial value */ ";
  ln "       boost::mpl::quote2<sum_items> /* use this function to add a new value to the summary */ ";
  ln "     > ";
  ln "   >;";
  ln "  using minus_token = token<lit_c<'-'>>;";
  ln "";
  ln "  #include <boost/metaparse/one_of.hpp>";
  ln "";
  ln "  using exp_parser12 = ";
  ln "   build_parser< ";
  ln "     foldl_start_with_parser< ";
  ln "       sequence<one_of<plus_token, minus_token>, int_token>, ";
  ln "       int_token, ";
  ln "       boost::mpl::quote2<sum_items> ";
  ln "     > ";
  ln "   >;";
  ln "  #include <boost/mpl/minus.hpp>";
  ln "";
  ln "  template <class L, char Op, class R> struct eval_binary_op;";
  ln "";
  ln "  template <class L, class R> struct eval_binary_op<L, '+', R> : boost::mpl::plus<L, R>::type {};";
  ln "";
  ln "  template <class L, class R> struct eval_binary_op<L, '-', R> : boost::mpl::minus<L, R>::type {};";
  ln "";
  ln "  template <class S, class Item> ";
  ln "   struct binary_op : ";
  ln "     eval_binary_op< ";
  ln "       S, ";
  ln "       boost::mpl::at_c<Item, 0>::type::value, ";
  ln "       typename boost::mpl::at_c<Item, 1>::type ";
  ln "     > ";
  ln "     {};";
  ln "";
  ln "  using exp_parser13 = ";
  ln "   build_parser< ";
  ln "     foldl_start_with_parser< ";
  ln "       sequence<one_of<plus_token, minus_token>, int_token>, ";
  ln "       int_token, ";
  ln "       boost::mpl::quote2<binary_op> ";
  ln "     > ";
  ln "   >;";
  ln "  #include <boost/mpl/times.hpp>";
  ln "";
  ln "  template <class L, class R> struct eval_binary_op<L, '*', R> : boost::mpl::times<L, R>::type {};";
  ln "";
  ln "  using times_token = token<lit_c<'*'>>;";
  ln "";
  ln "  using exp_parser14 = ";
  ln "   build_parser< ";
  ln "     foldl_start_with_parser< ";
  ln "       sequence<one_of<plus_token, minus_token, times_token>, int_token>, ";
  ln "       int_token, ";
  ln "       boost::mpl::quote2<binary_op> ";
  ln "     > ";
  ln "   >;";
  ln "  using mult_exp1 = foldl_start_with_parser<sequence<times_token, int_token>, int_token, boost::mpl::quote2<binary_op>>;";
  ln "";
  ln "  using exp_parser15 = ";
  ln "   build_parser< ";
  ln "     foldl_start_with_parser< ";
  ln "       sequence<one_of<plus_token, minus_token>, mult_exp1>, ";
  ln "       mult_exp1, ";
  ln "       boost::mpl::quote2<binary_op> ";
  ln "     > ";
  ln "   >;";
  ln "  #include <boost/mpl/divides.hpp>";
  ln "";
  ln "  template <class L, class R> struct eval_binary_op<L, '/', R> : boost::mpl::divides<L, R>::type {};";
  ln "";
  ln "  using divides_token = token<lit_c<'/'>>;";
  ln "";
  ln "  using mult_exp2 = ";
  ln "   foldl_start_with_parser< ";
  ln "     sequence<one_of<times_token, divides_token>, int_token>, ";
  ln "     int_token, ";
  ln "     boost::mpl::quote2<binary_op> ";
  ln "   >;";
  ln "";
  ln "  using exp_parser16 = ";
  ln "   build_parser< ";
  ln "     foldl_start_with_parser< ";
  ln "       sequence<one_of<plus_token, minus_token>, mult_exp2>, ";
  ln "       mult_exp2, ";
  ln "       boost::mpl::quote2<binary_op> ";
  ln "     > ";
  ln "   >;";
  ln "  template <class S, class Item> ";
  ln "   struct reverse_binary_op : ";
  ln "     eval_binary_op< ";
  ln "       typename boost::mpl::at_c<Item, 0>::type, ";
  ln "       boost::mpl::at_c<Item, 1>::type::value, ";
  ln "       S ";
  ln "     > ";
  ln "     {};";
  ln "";
  ln "  #include <boost/metaparse/foldr_start_with_parser.hpp>";
  ln "";
  ln "  using mult_exp3 = ";
  ln "   foldr_start_with_parser< ";
  ln "     sequence<int_token, one_of<times_token, divides_token>>, /* The parser applied repeatedly */ ";
  ln "     int_token, /* The parser parsing the last number */ ";
  ln "     boost::mpl::quote2<reverse_binary_op> /* The function called for every result */ ";
  ln "                                           /* of applying the above parser */ ";
  ln "   >;";
  ln "";
  ln "  using exp_parser17 = ";
  ln "   build_parser< ";
  ln "     foldl_start_with_parser< ";
  ln "       sequence<one_of<plus_token, minus_token>, mult_exp3>, ";
  ln "       mult_exp3, ";
  ln "       boost::mpl::quote2<binary_op> ";
  ln "     > ";
  ln "   >;";
  ln "  #include <boost/mpl/negate.hpp>";
  ln "";
  ln "  using unary_exp1 = ";
  ln "   foldr_start_with_parser< ";
  ln "     minus_token, ";
  ln "     int_token, ";
  ln "     boost::mpl::lambda<boost::mpl::negate<boost::mpl::_1>>::type ";
  ln "   >;";
  ln "";
  ln "  using mult_exp4 = ";
  ln "   foldl_start_with_parser< ";
  ln "     sequence<one_of<times_token, divides_token>, unary_exp1>, ";
  ln "     unary_exp1, ";
  ln "     boost::mpl::quote2<binary_op> ";
  ln "   >;";
  ln "";
  ln "  using exp_parser18 = ";
  ln "   build_parser< ";
  ln "     foldl_start_with_parser< ";
  ln "       sequence<one_of<plus_token, minus_token>, mult_exp4>, ";
  ln "       mult_exp4, ";
  ln "       boost::mpl::quote2<binary_op> ";
  ln "     > ";
  ln "   >;";
  ln "  using lparen_token = token<lit_c<'('>>;";
  ln "";
  ln "  using rparen_token = token<lit_c<')'>>;";
  ln "";
  ln "  using plus_exp1 = ";
  ln "   foldl_start_with_parser< ";
  ln "     sequence<one_of<plus_token, minus_token>, mult_exp4>, ";
  ln "     mult_exp4, ";
  ln "     boost::mpl::quote2<binary_op> ";
  ln "   >;";
  ln "";
  ln "  using paren_exp1 = sequence<lparen_token, plus_exp1, rparen_token>;";
  ln "";
  ln "  #include <boost/metaparse/middle_of.hpp>";
  ln "";
  ln "  using paren_exp2 = middle_of<lparen_token, plus_exp1, rparen_token>;";
  ln "";
  ln "  using primary_exp1 = one_of<int_token, paren_exp2>;";
  ln "";
  ln "  struct plus_exp2;";
  ln "";
  ln "  using paren_exp3 = middle_of<lparen_token, plus_exp2, rparen_token>;";
  ln "";
  ln "  using primary_exp2 = one_of<int_token, paren_exp2>;";
  ln "";
  ln "  using unary_exp2 = ";
  ln "   foldr_start_with_parser< ";
  ln "     minus_token, ";
  ln "     primary_exp2, ";
  ln "     boost::mpl::lambda<boost::mpl::negate<boost::mpl::_1>>::type ";
  ln "   >;";
  ln "";
  ln "  using mult_exp5 = ";
  ln "   foldl_start_with_parser< ";
  ln "     sequence<one_of<times_token, divides_token>, unary_exp2>, ";
  ln "     unary_exp2, ";
  ln "     boost::mpl::quote2<binary_op> ";
  ln "   >;";
  ln "";
  ln "  struct plus_exp2 : ";
  ln "   foldl_start_with_parser< ";
  ln "     sequence<one_of<plus_token, minus_token>, mult_exp5>, ";
  ln "     mult_exp5, ";
  ln "     boost::mpl::quote2<binary_op> ";
  ln "   > {};";
  ln "";
  ln "  using exp_parser19 = build_parser<plus_exp2>;";
  ln ""].

(** doc/before_11_3.qbk *)
Definition pages_4 : list str := [
  ln "[#before_11_3]";
  ln "['Definitions before section 11.3.]";
  ln "";
  ln "  #include <boost/metaparse/string.hpp>";
  ln "  #include <boost/metaparse/int_.hpp>";
  ln "";
  ln "  #include <boost/metaparse/build_parser.hpp>";
  ln "";
  ln "  using namespace boost::metaparse;";
  ln "";
  ln "  using exp_parser1 = build_parser<int_>;";
  ln "  #include <boost/metaparse/entire_input.hpp>";
  ln "";
  ln "  using exp_parser2 = build_parser<entire_input<int_>>;";
  ln "  #include <boost/metaparse/token.hpp>";
  ln "";
  ln "  using exp_parser3 = build_parser<entire_input<token<int_>>>;";
  ln "  #include <boost/metaparse/lit_c.hpp>";
  ln "";
  ln "  #include <boost/metaparse/sequence.hpp>";
  ln "";
  ln "  using exp_parser4 = build_parser<sequence<token<int_>, token<lit_c<'+'>>, token<int_>>>;";
  ln "";
  ln "  #include <metashell/formatter.hpp>";
  ln "  ";
  ln "  using int_token = token<int_>;";
  ln "";
  ln "  using plus_token = token<lit_c<'+'>>;";
  ln "";
  ln "  using exp_parser5 = build_parser<sequence<int_token, plus_token, int_token>>;";
  ln "  #include <boost/metaparse/transform.hpp>";
  ln "";
  ln "  #include <boost/mpl/plus.hpp>";
  ln "";
  ln "  #include <boost/mpl/at.hpp>";
  ln "";
  ln "  template <class Vector> ";
  ln "   struct eval_plus : ";
  ln "     boost::mpl::plus< ";
  ln "       typename boost::mpl::at_c<Vector, 0>::type, ";
  ln "       typename boost::mpl::at_c<Vector, 2>::type ";
  ln "     > {};";
  ln "";
  ln "  #include <boost/mpl/quote.hpp>";
  ln "";
  ln "  using exp_parser6 = ";
  ln "   build_parser< ";
  ln "     transform< ";
  ln "       sequence<int_token, plus_token, int_token>, ";
  ln "       boost::mpl::quote1<eval_plus> ";
  ln "     > ";
  ln "   >;";
  ln "  #include <boost/metaparse/any.hpp>";
  ln "";
  ln "  using exp_parser7 = ";
  ln "   build_parser< ";
  ln "     sequence< ";
  ln "       int_token,                                /* The first <number> */ ";
  ln "       repeated<sequence<plus_token, int_token>> /* The ""+ <number>"" elements */ ";
  ln "     > ";
  ln "   >;";
  ln "  using temp_result = exp_parser7::apply<BOOST_METAPARSE_STRING(""1 + 2 + 3 + 4"")>::type;";
  ln "  #include <boost/mpl/fold.hpp>";
  ln "";
  ln "  using vector_of_numbers = ";
  ln "   boost::mpl::vector< ";
  ln "     boost::mpl::int_<2>, ";
  ln "     boost::mpl::int_<5>, ";
  ln "     boost::mpl::int_<6> ";
  ln "   >;";
  ln "";
  ln "  template <class Vector> ";
  ln "   struct sum_vector : ";
  ln "      boost::mpl::fold< ";
  ln "        Vector, ";
  ln "        boost::mpl::int_<0>, ";
  ln "        boost::mpl::lambda< ";
  ln "          boost::mpl::plus<boost::mpl::_1, boost::mpl::_2> ";
  ln "        >::type ";
  ln "      > ";
  ln "    {};";
  ln "";
  ln "  template <class Sum, class Item> ";
  ln "     struct sum_items : ";
  ln "       boost::mpl::plus< ";
  ln "         Sum, ";
  ln "         typename boost::mpl::at_c<Item, 1>::type ";
  ln "       > ";
  ln "   {};";
  ln "  using exp_parser8 = ";
  ln "   build_parser< ";
  ln "     sequence< ";
  ln "       int_token, /* parse the first <number> */ ";
  ln "       transform< ";
  ln "         repeated<sequence<plus_token, int_token>>, /* parse the ""+ <number>"" elements */ ";
  ln "         /* lambda expression summarising the ""+ <number>"" elements using fold */ ";
  ln "         boost::mpl::lambda< ";
  ln "           /* The folding expression we have just created */ ";
  ln "           boost::mpl::fold< ";
  ln "             boost::mpl::_1, /* the argument of the lambda expression, the result */ ";
  ln "                             /* of the repeated<...> parser */ ";
  ln "             boost::mpl::int_<0>, ";
  ln "             boost::mpl::quote2<sum_items> ";
  ln "           > ";
  ln "         >::type ";
  ln "       > ";
  ln "     > ";
  ln "   >;";
  ln "";
  ln "  using exp_parser9 = ";
  ln "   build_parser< ";
  ln "     transform< ";
  ln "       /* What we had so far */ ";
  ln "       sequence< ";
  ln "         int_token, ";
  ln "         transform< ";
  ln "           repeated<sequence<plus_token, int_token>>, ";
  ln "           boost::mpl::lambda< ";
  ln "             boost::mpl::fold< ";
  ln "               boost::mpl::_1, ";
  ln "               boost::mpl::int_<0>, ";
  ln "               boost::mpl::quote2<sum_items> ";
  ln "             > ";
  ln "           >::type ";
  ln "         > ";
  ln "       >, ";
  ln "       boost::mpl::quote1<sum_vector> /* summarise the vector of numbers */ ";
  ln "     > ";
  ln "   >;";
  ln "  #include <boost/metaparse/foldl.hpp>";
  ln "";
  ln "  using exp_parser10 = ";
  ln "   build_parser< ";
  ln "     transform< ";
  ln "       sequence< ";
  ln "         int_token, ";
  ln "         foldl< ";
  ln "           sequence<plus_token, int_token>, ";
  ln "           boost::mpl::int_<0>, ";
  ln "           boost::mpl::quote2<sum_items> ";
  ln "         > ";
  ln "       >, ";
  ln "       boost::mpl::quote1<sum_vector>> ";
  ln "   >;";
  ln "  #include <boost/metaparse/foldl_start_with_parser.hpp>";
  ln "";
  ln "  using exp_parser11 = ";
  ln "   build_parser< ";
  ln "     foldl_start_with_parser< ";
  ln "       sequence<plus_token, int_token>, /* apply this parser repeatedly */ ";
  ln "       int_token, /* use this parser to get the initial value */ ";
  ln "       boost::mpl::quote2<sum_items> /* use this function to add a new value to the summary */ ";
  ln "     > ";
  ln "   >;";
  ln "  using minus_token = token<lit_c<'-'>>;";
  ln "";
  ln "  #include <boost/metaparse/one_of.hpp>";
  ln "";
  ln "  using exp_parser12 = ";
  ln "   build_parser< ";
  ln "     foldl_start_with_parser< ";
  ln "       sequence<one_of<plus_token, minus_token>, int_token>, ";
  ln "       int_token, ";
  ln "       boost::mpl::quote2<sum_items> ";
  ln "     > ";
  ln "   >;";
  ln "  #include <boost/mpl/minus.hpp>";
  ln "";
  ln "  template <class L, char Op, class R> struct eval_binary_op;";
  ln "";
  ln "  template <class L, class R> struct eval_binary_op<L, '+', R> : boost::mpl::plus<L, R>::type {};";
  ln "";
  ln "  template <class L, class R> struct eval_binary_op<L, '-', R> : boost::mpl::minus<L, R>::type {};";
  ln "";
  ln "  template <class S, class Item> ";
  ln "   struct binary_op : ";
  ln "     eval_binary_op< ";
  ln "       S, ";
  ln "       boost::mpl::at_c<Item, 0>::type::value, ";
  ln "       typename boost::mpl::at_c<Item, 1>::type ";
  ln "     > ";
  ln "     {};";
  ln "";
  ln "  using exp_parser13 = ";
  ln "   build_parser< ";
  ln "     foldl_start_with_parser< ";
  ln "       sequence<one_of<plus_token, minus_token>, int_token>, ";
  ln "       int_token, ";
  ln "       boost::mpl::quote2<binary_op> ";
  ln "     > ";
  ln "   >;";
  ln "  #include <boost/mpl/times.hpp>";
  ln "";
  ln "  template <class L, class R> struct eval_binary_op<L, '*', R> : boost::mpl::times<L, R>::type {};";
  ln "";
  ln "  using times_token = token<lit_c<'*'>>;";
  ln "";
  ln "  using exp_parser14 = ";
  ln "   build_parser< ";
  ln "     foldl_start_with_parser< ";
  ln "       sequence<one_of<plus_token, minus_token, times_token>, int_token>, ";
  ln "       int_token, ";
  ln "       boost::mpl::quote2<binary_op> ";
  ln "     > ";
  ln "   >;";
  ln "  using mult_exp1 = foldl_start_with_parser<sequence<times_token, int_token>, int_token, boost::mpl::quote2<binary_op>>;";
  ln "";
  ln "  using exp_parser15 = ";
  ln "   build_parser< ";
  ln "     foldl_start_with_parser< ";
  ln "       sequence<one_of<plus_token, minus_token>, mult_exp1>, ";
  ln "       mult_exp1, ";
  ln "       boost::mpl::quote2<binary_op> ";
  ln "     > ";
  ln "   >;";
  ln "  #include <boost/mpl/divides.hpp>";
  ln "";
  ln "  template <class L, class R> struct eval_binary_op<L, '/', R> : boost::mpl::divides<L, R>::type {};";
  ln "";
  ln "  using divides_token = token<lit_c<'/'>>;";
  ln "";
  ln "  using mult_exp2 = ";
  ln "   foldl_start_with_parser< ";
  ln "     sequence<one_of<times_token, divides_token>, int_token>, ";
  ln "     int_token, ";
  ln "     boost::mpl::quote2<binary_op> ";
  ln "   >;";
  ln "";
  ln "  using exp_parser16 = ";
  ln "   build_parser< ";
  ln "     foldl_start_with_parser< ";
  ln "       sequence<one_of<plus_token, minus_token>, mult_exp2>, ";
  ln "       mult_exp2, ";
  ln "       boost::mpl::quote2<binary_op> ";
  ln "     > ";
  ln "   >;";
  ln "  template <class S, class Item> ";
  ln "   struct reverse_binary_op : ";
  ln "     eval_binary_op< ";
  ln "       typename boost::mpl::at_c<Item, 0>::type, ";
  ln "       boost::mpl::at_c<Item, 1>::type::value, ";
  ln "       S ";
  ln "     > ";
  ln "     {};";
  ln "";
  ln "  #include <boost/metaparse/foldr_start_with_parser.hpp>";
  ln "";
  ln "  using mult_exp3 = ";
  ln "   foldr_start_with_parser< ";
  ln "     sequence<int_token, one_of<times_token, divides_token>>, /* The parser applied repeatedly */ ";
  ln "     int_token, /* The parser parsing the last number */ ";
  ln "     boost::mpl::quote2<reverse_binary_op> /* The function called for every result */ ";
  ln "                                           /* of applying the above parser */ ";
  ln "   >;";
  ln "";
  ln "  using exp_parser17 = ";
  ln "   build_parser< ";
  ln "     foldl_start_with_parser< ";
  ln "       sequence<one_of<plus_token, minus_token>, mult_exp3>, ";
  ln "       mult_exp3, ";
  ln "       boost::mpl::quote2<binary_op> ";
  ln "     > ";
  ln "   >;";
  ln "  #include <boost/mpl/negate.hpp>";
  ln "";
  ln "  using unary_exp1 = ";
  ln "   foldr_start_with_parser< ";
  ln "     minus_token, ";
  ln "     int_token, ";
  ln "     boost::mpl::lambda<boost::mpl::negate<boost::mpl::_1>>::type ";
  ln "   >;";
  ln "";
  ln "  using mult_exp4 = ";
  ln "   foldl_start_with_parser< ";
  ln "     sequence<one_of<times_token, divides_token>, unary_exp1>, ";
  ln "     unary_exp1, ";
  ln "     boost::mpl::quote2<binary_op> ";
  ln "   >;";
  ln "";
  ln "  using exp_parser18 = ";
  ln "   build_parser< ";
  ln "     foldl_start_with_parser< ";
  ln "       sequence<one_of<plus_token, minus_token>, mult_exp4>, ";
  ln "       mult_exp4, ";
  ln "       boost::mpl::quote2<binary_op> ";
  ln "     > ";
  ln "   >;";
  ln "  using lparen_token = token<lit_c<'('>>;";
  ln "";
  ln "  using rparen_token = token<lit_c<')'>>;";
  ln "";
  ln "  using plus_exp1 = ";
  ln "   foldl_start_with_parser< ";
  ln "     sequence<one_of<plus_token, minus_token>, mult_exp4>, ";
  ln "     mult_exp4, ";
  ln "     boost::mpl::quote2<binary_op> ";
  ln "   >;";
  ln "";
  ln "  using paren_exp1 = sequence<lparen_token, plus_exp1, rparen_token>;";
  ln "";
  ln "  #include <boost/metaparse/middle_of.hpp>";
  ln "";
  ln "  using paren_exp2 = middle_of<lparen_token, plus_exp1, rparen_token>;";
  ln "";
  ln "  using primary_exp1 = one_of<int_token, paren_exp2>;";
  ln "";
  ln "  struct plus_exp2;";
  ln "";
  ln "  using paren_exp3 = middle_of<lparen_token, plus_exp2, rparen_token>;";
  ln "";
  ln "  using primary_exp2 = one_of<int_token, paren_exp2>;";
  ln "";
  ln "  using unary_exp2 = ";
  ln "   foldr_start_with_parser< ";
  ln "     minus_token, ";
  ln "     primary_exp2, ";
  ln "     boost::mpl::lambda<boost::mpl::negate<boost::mpl::_1>>::type ";
  ln "   >;";
  ln "";
  ln "  using mult_exp5 = ";
  ln "   foldl_start_with_parser< ";
  ln "     sequence<one_of<times_token, divides_token>, unary_exp2>, ";
  ln "     unary_exp2, ";
  ln "     boost::mpl::quote2<binary_op> ";
  ln "   >;";
  ln "";
  ln "  struct plus_exp2 : ";
  ln "   foldl_start_with_parser< ";
  ln "     sequence<one_of<plus_token, minus_token>, mult_exp5>, ";
  ln "     mult_exp5, ";
  ln "     boost::mpl::quote2<binary_op> ";
  ln "   > {};";
  ln "";
  ln "  using exp_parser19 = build_parser<plus_exp2>;";
  ln "  #include <boost/metaparse/define_error.hpp>";
  ln "";
  ln "  BOOST_METAPARSE_DEFINE_ERROR(missing_primary_expression, ""Missing primary expression"");";
  ln "";
  ln "  struct plus_exp3;";
  ln "";
  ln "  using paren_exp4 = middle_of<lparen_token, plus_exp3, rparen_token>;";
  ln "";
  ln "  #include <boost/metaparse/fail.hpp>";
  ln "";
  ln "  using primary_exp3 = one_of<int_token, paren_exp4, fail<missing_primary_expression>>;";
  ln "";
  ln "  using unary_exp3 = ";
  ln "   foldr_start_with_parser< ";
  ln "     minus_token, ";
  ln "     primary_exp3, ";
  ln "     boost::mpl::lambda<boost::mpl::negate<boost::mpl::_1>>::type ";
  ln "   >;";
  ln "";
  ln "  using mult_exp6 = ";
  ln "   foldl_start_with_parser< ";
  ln "     sequence<one_of<times_token, divides_token>, unary_exp3>, ";
  ln "     unary_exp3, ";
  ln "     boost::mpl::quote2<binary_op> ";
  ln "   >;";
  ln "";
  ln "  struct plus_exp3 : ";
  ln "   foldl_start_with_parser< ";
  ln "     sequence<one_of<plus_token, minus_token>, mult_exp6>, ";
  ln "     mult_exp6, ";
  ln "     boost::mpl::quote2<binary_op> ";
  ln "   > {};";
  ln "";
  ln "  using exp_parser20 = build_parser<plus_exp3>;";
  ln ""].

(** doc/before_11_3_1.qbk *)
Definition pages_5 : list str := [
  ln "[#before_11_3_1]";
  ln "['Definitions before section 11.3.1.]";
  ln "";
  ln "  #include <boost/metaparse/string.hpp>";
  ln "  #include <boost/metaparse/int_.hpp>";
  ln "";
  ln "  #include <boost/metaparse/build_parser.hpp>";
  ln "";
  ln "  using namespace boost::metaparse;";
  ln "";
  ln "  using exp_parser1 = build_parser<int_>;";
  ln "  #include <boost/metaparse/entire_input.hpp>";
  ln "";
  ln "  using exp_parser2 = build_parser<entire_input<int_>>;";
  ln "  #include <boost/metaparse/token.hpp>";
  ln "";
  ln "  using exp_parser3 = build_parser<entire_input<token<int_>>>;";
  ln "  #include <boost/metaparse/lit_c.hpp>";
  ln "";
  ln "  #include <boost/metaparse/sequence.hpp>";
  ln "";
  ln "  using exp_parser4 = build_parser<sequence<token<int_>, token<lit_c<'+'>>, token<int_>>>;";
  ln "";
  ln "  #include <metashell/formatter.hpp>";
  ln "  ";
  ln "  using int_token = token<int_>;";
  ln "";
  ln "  using plus_token = token<lit_c<'+'>>;";
  ln "";
  ln "  using exp_parser5 = build_parser<sequence<int_token, plus_token, int_token>>;";
  ln "  #include <boost/metaparse/transform.hpp>";
  ln "";
  ln "  #include <boost/mpl/plus.hpp>";
  ln "";
  ln "  #include <boost/mpl/at.hpp>";
  ln "";
  ln "  template <class Vector> ";
  ln "   struct eval_plus : ";
  ln "     boost::mpl::plus< ";
  ln "       typename boost::mpl::at_c<Vector, 0>::type, ";
  ln "       typename boost::mpl::at_c<Vector, 2>::type ";
  ln "     > {};";
  ln "";
  ln "  #include <boost/mpl/quote.hpp>";
  ln "";
  ln "  using exp_parser6 = ";
  ln "   build_parser< ";
  ln "     transform< ";
  ln "       sequence<int_token, plus_token, int_token>, ";
  ln "       boost::mpl::quote1<eval_plus> ";
  ln "     > ";
  ln "   >;";
  ln "  #include <boost/metaparse/any.hpp>";
  ln "";
  ln "  using exp_parser7 = ";
  ln "   build_parser< ";
  ln "     sequence< ";
  ln "       int_token,                                /* The first <number> */ ";
  ln "       repeated<sequence<plus_token, int_token>> /* The ""+ <number>"" elements */ ";
  ln "     > ";
  ln "   >;";
  ln "  using temp_result = exp_parser7::apply<BOOST_METAPARSE_STRING(""1 + 2 + 3 + 4"")>::type;";
  ln "  #include <boost/mpl/fold.hpp>";
  ln "";
  ln "  using vector_of_numbers = ";
  ln "   boost::mpl::vector< ";
  ln "     boost::mpl::int_<2>, ";
  ln "     boost::mpl::int_<5>, ";
  ln "     boost::mpl::int_<6> ";
  ln "   >;";
  ln "";
  ln "  template <class Vector> ";
  ln "   struct sum_vector : ";
  ln "      boost::mpl::fold< ";
  ln "        Vector, ";
  ln "        boost::mpl::int_<0>, ";
  ln "        boost::mpl::lambda< ";
  ln "          boost::mpl::plus<boost::mpl::_1, boost::mpl::_2> ";
  ln "        >::type ";
  ln "      > ";
  ln "    {};";
  ln "";
  ln "  template <class Sum, class Item> ";
  ln "     struct sum_items : ";
  ln "       boost::mpl::plus< ";
  ln "         Sum, ";
  ln "         typename boost::mpl::at_c<Item, 1>::type ";
  ln "       > ";
  ln "   {};";
  ln "  using exp_parser8 = ";
  ln "   build_parser< ";
  ln "     sequence< ";
  ln "       int_token, /* parse the first <number> */ ";
  ln "       transform< ";
  ln "         repeated<sequence<plus_token, int_token>>, /* parse the ""+ <number>"" elements */ ";
  ln "         /* lambda expression summarising the ""+ <number>"" elements using fold */ ";
  ln "         boost::mpl::lambda< ";
  ln "           /* The folding expression we have just created */ ";
  ln "           boost::mpl::fold< ";
  ln "             boost::mpl::_1, /* the argument of the lambda expression, the result */ ";
  ln "                             /* of the repeated<...> parser */ ";
  ln "             boost::mpl::int_<0>, ";
  ln "             boost::mpl::quote2<sum_items> ";
  ln "           > ";
  ln "         >::type ";
  ln "       > ";
  ln "     > ";
  ln "   >;";
  ln "";
  ln "  using exp_parser9 = ";
  ln "   build_parser< ";
  ln "     transform< ";
  ln "       /* What we had so far */ ";
  ln "       sequence< ";
  ln "         int_token, ";
  ln "         transform< ";
  ln "           repeated<sequence<plus_token, int_token>>, ";
  ln "           boost::mpl::lambda< ";
  ln "             boost::mpl::fold< ";
  ln "               boost::mpl::_1, ";
  ln "               boost::mpl::int_<0>, ";
  ln "               boost::mpl::quote2<sum_items> ";
  ln "             > ";
  ln "           >::type ";
  ln "         > ";
  ln "       >, ";
  ln "       boost::mpl::quote1<sum_vector> /* summarise the vector of numbers */ ";
  ln "     > ";
  ln "   >;";
  ln "  #include <boost/metaparse/foldl.hpp>";
  ln "";
  ln "  using exp_parser10 = ";
  ln "   build_parser< ";
  ln "     transform< ";
  ln "       sequence< ";
  ln "         int_token, ";
  ln "         foldl< ";
  ln "           sequence<plus_token, int_token>, ";
  ln "           boost::mpl::int_<0>, ";
  ln "           boost::mpl::quote2<sum_items> ";
  ln "         > ";
  ln "       >, ";
  ln "       boost::mpl::quote1<sum_vector>> ";
  ln "   >;";
  ln "  #include <boost/metaparse/foldl_start_with_parser.hpp>";
  ln "";
  ln "  using exp_parser11 = ";
  ln "   build_parser< ";
  ln "     foldl_start_with_parser< ";
  ln "       sequence<plus_token, int_token>, /* apply this parser repeatedly */ ";
  ln "       int_token, /* use this parser to get the initial value */ ";
  ln "       boost::mpl::quote2<sum_items> /* use this function to add a new value to the summary */ ";
  ln "     > ";
  ln "   >;";
  ln "  using minus_token = token<lit_c<'-'>>;";
  ln "";
  ln "  #include <boost/metaparse/one_of.hpp>";
  ln "";
  ln "  using exp_parser12 = ";
  ln "   build_parser< ";
  ln "     foldl_start_with_parser< ";
  ln "       sequence<one_of<plus_token, minus_token>, int_token>, ";
  ln "       int_token, ";
  ln "       boost::mpl::quote2<sum_items> ";
  ln "     > ";
  ln "   >;";
  ln "  #include <boost/mpl/minus.hpp>";
  ln "";
  ln "  template <class L, char Op, class R> struct eval_binary_op;";
  ln "";
  ln "  template <class L, class R> struct eval_binary_op<L, '+', R> : boost::mpl::plus<L, R>::type {};";
  ln "";
  ln "  template <class L, class R> struct eval_binary_op<L, '-', R> : boost::mpl::minus<L, R>::type {};";
  ln "";
  ln "  template <class S, class Item> ";
  ln "   struct binary_op : ";
  ln "     eval_binary_op< ";
  ln "       S, ";
  ln "       boost::mpl::at_c<Item, 0>::type::value, ";
  ln "       typename boost::mpl::at_c<Item, 1>::type ";
  ln "     > ";
  ln "     {};";
  ln "";
  ln "  using exp_parser13 = ";
  ln "   build_parser< ";
  ln "     foldl_start_with_parser< ";
  ln "       sequence<one_of<plus_token, minus_token>, int_token>, ";
  ln "       int_token, ";
  ln "       boost::mpl::quote2<binary_op> ";
  ln "     > ";
  ln "   >;";
  ln "  #include <boost/mpl/times.hpp>";
  ln "";
  ln "  template <class L, class R> struct eval_binary_op<L, '*', R> : boost::mpl::times<L, R>::type {};";
  ln "";
  ln "  using times_token = token<lit_c<'*'>>;";
  ln "";
  ln "  using exp_parser14 = ";
  ln "   build_parser< ";
  ln "     foldl_start_with_parser< ";
  ln "       sequence<one_of<plus_token, minus_token, times_token>, int_token>, ";
  ln "       int_token, ";
  ln "       boost::mpl::quote2<binary_op> ";
  ln "     > ";
  ln "   >;";
  ln "  using mult_exp1 = foldl_start_with_parser<sequence<times_token, int_token>, int_token, boost::mpl::quote2<binary_op>>;";
  ln "";
  ln "  using exp_parser15 = ";
  ln "   build_parser< ";
  ln "     foldl_start_with_parser< ";
  ln "       sequence<one_of<plus_token, minus_token>, mult_exp1>, ";
  ln "       mult_exp1, ";
  ln "       boost::mpl::quote2<binary_op> ";
  ln "     > ";
  ln "   >;";
  ln "  #include <boost/mpl/divides.hpp>";
  ln "";
  ln "  template <class L, class R> struct eval_binary_op<L, '/', R> : boost::mpl::divides<L, R>::type {};";
  ln "";
  ln "  using divides_token = token<lit_c<'/'>>;";
  ln "";
  ln "  using mult_exp2 = ";
  ln "   foldl_start_with_parser< ";
  ln "     sequence<one_of<times_token, divides_token>, int_token>, ";
  ln "     int_token, ";
  ln "     boost::mpl::quote2<binary_op> ";
  ln "   >;";
  ln "";
  ln "  using exp_parser16 = ";
  ln "   build_parser< ";
  ln "     foldl_start_with_parser< ";
  ln "       sequence<one_of<plus_token, minus_token>, mult_exp2>, ";
  ln "       mult_exp2, ";
  ln "       boost::mpl::quote2<binary_op> ";
  ln "     > ";
  ln "   >;";
  ln "  template <class S, class Item> ";
  ln "   struct reverse_binary_op : ";
  ln "     eval_binary_op< ";
  ln "       typename boost::mpl::at_c<Item, 0>::type, ";
  ln "       boost::mpl::at_c<Item, 1>::type::value, ";
  ln "       S ";
  ln "     > ";
  ln "     {};";
  ln "";
  ln "  #include <boost/metaparse/foldr_start_with_parser.hpp>";
  ln "";
  ln "  using mult_exp3 = ";
  ln "   foldr_start_with_parser< ";
  ln "     sequence<int_token, one_of<times_token, divides_token>>, /* The parser applied repeatedly */ ";
  ln "     int_token, /* The parser parsing the last number */ ";
  ln "     boost::mpl::quote2<reverse_binary_op> /* The function called for every result */ ";
  ln "                                           /* of applying the above parser */ ";
  ln "   >;";
  ln "";
  ln "  using exp_parser17 = ";
  ln "   build_parser< ";
  ln "     foldl_start_with_parser< ";
  ln "       sequence<one_of<plus_token, minus_token>, mult_exp3>, ";
  ln "       mult_exp3, ";
  ln "       boost::mpl::quote2<binary_op> ";
  ln "     > ";
  ln "   >;";
  ln "  #include <boost/mpl/negate.hpp>";
  ln "";
  ln "  using unary_exp1 = ";
  ln "   foldr_start_with_parser< ";
  ln "     minus_token, ";
  ln "     int_token, ";
  ln "     boost::mpl::lambda<boost::mpl::negate<boost::mpl::_1>>::type ";
  ln "   >;";
  ln "";
  ln "  using mult_exp4 = ";
  ln "   foldl_start_with_parser< ";
  ln "     sequence<one_of<times_token, divides_token>, unary_exp1>, ";
  ln "     unary_exp1, ";
  ln "     boost::mpl::quote2<binary_op> ";
  ln "   >;";
  ln "";
  ln "  using exp_parser18 = ";
  ln "   build_parser< ";
  ln "     foldl_start_with_parser< ";
  ln "       sequence<one_of<plus_token, minus_token>, mult_exp4>, ";
  ln "       mult_exp4, ";
  ln "       boost::mpl::quote2<binary_op> ";
  ln "     > ";
  ln "   >;";
  ln "  using lparen_token = token<lit_c<'('>>;";
  ln "";
  ln "  using rparen_token = token<lit_c<')'>>;";
  ln "";
  ln "  using plus_exp1 = ";
  ln "   foldl_start_with_parser< ";
  ln "     sequence<one_of<plus_token, minus_token>, mult_exp4>, ";
  ln "     mult_exp4, ";
  ln "     boost::mpl::quote2<binary_op> ";
  ln "   >;";
  ln "";
  ln "  using paren_exp1 = sequence<lparen_token, plus_exp1, rparen_token>;";
  ln "";
  ln "  #include <boost/metaparse/middle_of.hpp>";
  ln "";
  ln "  using paren_exp2 = middle_of<lparen_token, plus_exp1, rparen_token>;";
  ln "";
  ln "  using primary_exp1 = one_of<int_token, paren_exp2>;";
  ln "";
  ln "  struct plus_exp2;";
  ln "";
  ln "  using paren_exp3 = middle_of<lparen_token, plus_exp2, rparen_token>;";
  ln "";
  ln "  using primary_exp2 = one_of<int_token, paren_exp2>;";
  ln "";
  ln "  using unary_exp2 = ";
  ln "   foldr_start_with_parser< ";
  ln "     minus_token, ";
  ln "     primary_exp2, ";
  ln "     boost::mpl::lambda<boost::mpl::negate<boost::mpl::_1>>::type ";
  ln "   >;";
  ln "";
  ln "  using mult_exp5 = ";
  ln "   foldl_start_with_parser< ";
  ln "     sequence<one_of<times_token, divides_token>, unary_exp2>, ";
  ln "     unary_exp2, ";
  ln "     boost::mpl::quote2<binary_op> ";
  ln "   >;";
  ln "";
  ln "  struct plus_exp2 : ";
  ln "   foldl_start_with_parser< ";
  ln "     sequence<one_of<plus_token, minus_token>, mult_exp5>, ";
  ln "     mult_exp5, ";
  ln "     boost::mpl::quote2<binary_op> ";
  ln "   > {};";
  ln "";
  ln "  using exp_parser19 = build_parser<plus_exp2>;";
  ln "  #include <boost/metaparse/define_error.hpp>";
  ln "";
  ln "  BOOST_METAPARSE_DEFINE_ERROR(missing_primary_expression, ""Missing primary expression"");";
  ln "";
  ln "  struct plus_exp3;";
  ln "";
  ln "  using paren_exp4 = middle_of<lparen_token, plus_exp3, rparen_token>;";
  ln "";
  ln "  #include <boost/metaparse/fail.hpp>";
  ln "";
  ln "  using primary_exp3 = one_of<int_token, paren_exp4, fail<missing_primary_expression>>;";
  ln "";
  ln "  using unary_exp3 = ";
  ln "   foldr_start_with_parser< ";
  ln "     minus_token, ";
  ln "     primary_exp3, ";
  ln "     boost::mpl::lambda<boost::mpl::negate<boost::mpl::_1>>::type ";
  ln "   >;";
  ln "";
  ln "  using mult_exp6 = ";
  ln "   foldl_start_with_parser< ";
  ln "     sequence<one_of<times_token, divides_token>, unary_exp3>, ";
  ln "     unary_exp3, ";
  ln "     boost::mpl::quote2<binary_op> ";
  ln "   >;";
  ln "";
  ln "  struct plus_exp3 : ";
  ln "   foldl_start_with_parser< ";
  ln "     sequence<one_of<plus_token, minus_token>, mult_exp6>, ";
  ln "     mult_exp6, ";
  ln "     boost::mpl::quote2<binary_op> ";
  ln "   > {};";
  ln "";
  ln "  using exp_parser20 = build_parser<plus_exp3>;";
  ln "  #include <boost/metaparse/fail_at_first_char_expected.hpp>";
  ln "";
  ln "  #include <boost/metaparse/first_of.hpp>";
  ln "";
  ln "  struct plus_exp4 : ";
  ln "   first_of< ";
  ln "     foldl_start_with_parser< ";
  ln "       sequence<one_of<plus_token, minus_token>, mult_exp6>, ";
  ln "       mult_exp6, ";
  ln "       boost::mpl::quote2<binary_op> ";
  ln "     >, ";
  ln "     fail_at_first_char_expected< ";
  ln "       sequence<one_of<plus_token, minus_token>, mult_exp6> ";
  ln "     > ";
  ln "   > {};";
  ln "";
  ln "  using exp_parser21 = build_parser<plus_exp4>;";
  ln ""].

(** doc/before_11_3_2.qbk *)
Definition pages_6 : list str := [
  ln "[#before_11_3_2]";
  ln "['Definitions before section 11.3.2.]";
  ln "";
  ln "  #include <boost/metaparse/string.hpp>";
  ln "  #include <boost/metaparse/int_.hpp>";
  ln "";
  ln "  #include <boost/metaparse/build_parser.hpp>";
  ln "";
  ln "  using namespace boost::metaparse;";
  ln "";
  ln "  using exp_parser1 = build_parser<int_>;";
  ln "  #include <boost/metaparse/entire_input.hpp>";
  ln "";
  ln "  using exp_parser2 = build_parser<entire_input<int_>>;";
  ln "  #include <boost/metaparse/token.hpp>";
  ln "";
  ln "  using exp_parser3 = build_parser<entire_input<token<int_>>>;";
  ln "  #include <boost/metaparse/lit_c.hpp>";
  ln "";
  ln "  #include <boost/metaparse/sequence.hpp>";
  ln "";
  ln "  using exp_parser4 = build_parser<sequence<token<int_>, token<lit_c<'+'>>, token<int_>>>;";
  ln "";
  ln "  #include <metashell/formatter.hpp>";
  ln "  ";
  ln "  using int_token = token<int_>;";
  ln "";
  ln "  using plus_token = token<lit_c<'+'>>;";
  ln "";
  ln "  using exp_parser5 = build_parser<sequence<int_token, plus_token, int_token>>;";
  ln "  #include <boost/metaparse/transform.hpp>";
  ln "";
  ln "  #include <boost/mpl/plus.hpp>";
  ln "";
  ln "  #include <boost/mpl/at.hpp>";
  ln "";
  ln "  template <class Vector> ";
  ln "   struct eval_plus : ";
  ln "     boost::mpl::plus< ";
  ln "       typename boost::mpl::at_c<Vector, 0>::type, ";
  ln "       typename boost::mpl::at_c<Vector, 2>::type ";
  ln "     > {};";
  ln "";
  ln "  #include <boost/mpl/quote.hpp>";
  ln "";
  ln "  using exp_parser6 = ";
  ln "   build_parser< ";
  ln "     transform< ";
  ln "       sequence<int_token, plus_token, int_token>, ";
  ln "       boost::mpl::quote1<eval_plus> ";
  ln "     > ";
  ln "   >;";
  ln "  #include <boost/metaparse/any.hpp>";
  ln "";
  ln "  using exp_parser7 = ";
  ln "   build_parser< ";
  ln "     sequence< ";
  ln "       int_token,                                /* The first <number> */ ";
  ln "       repeated<sequence<plus_token, int_token>> /* The ""+ <number>"" elements */ ";
  ln "     > ";
  ln "   >;";
  ln "  using temp_result = exp_parser7::apply<BOOST_METAPARSE_STRING(""1 + 2 + 3 + 4"")>::type;";
  ln "  #include <boost/mpl/fold.hpp>";
  ln "";
  ln "  using vector_of_numbers = ";
  ln "   boost::mpl::vector< ";
  ln "     boost::mpl::int_<2>, ";
  ln "     boost::mpl::int_<5>, ";
  ln "     boost::mpl::int_<6> ";
  ln "   >;";
  ln "";
  ln "  template <class Vector> ";
  ln "   struct sum_vector : ";
  ln "      boost::mpl::fold< ";
  ln "        Vector, ";
  ln "        boost::mpl::int_<0>, ";
  ln "        boost::mpl::lambda< ";
  ln "          boost::mpl::plus<boost::mpl::_1, boost::mpl::_2> ";
  ln "        >::type ";
  ln "      > ";
  ln "    {};";
  ln "";
  ln "  template <class Sum, class Item> ";
  ln "     struct sum_items : ";
  ln "       boost::mpl::plus< ";
  ln "         Sum, ";
  ln "         typename boost::mpl::at_c<Item, 1>::type ";
  ln "       > ";
  ln "   {};";
  ln "  using exp_parser8 = ";
  ln "   build_parser< ";
  ln "     sequence< ";
  ln "       int_token, /* parse the first <number> */ ";
  ln "       transform< ";
  ln "         repeated<sequence<plus_token, int_token>>, /* parse the ""+ <number>"" elements */ ";
  ln "         /* lambda expression summarising the ""+ <number>"" elements using fold */ ";
  ln "         boost::mpl::lambda< ";
  ln "           /* The folding expression we have just created */ ";
  ln "           boost::mpl::fold< ";
  ln "             boost::mpl::_1, /* the argument of the lambda expression, the result */ ";
  ln "                             /* of the repeated<...> parser */ ";
  ln "             boost::mpl::int_<0>, ";
  ln "             boost::mpl::quote2<sum_items> ";
  ln "           > ";
  ln "         >::type ";
  ln "       > ";
  ln "     > ";
  ln "   >;";
  ln "";
  ln "  using exp_parser9 = ";
  ln "   build_parser< ";
  ln "     transform< ";
  ln "       /* What we had so far */ ";
  ln "       sequence< ";
  ln "         int_token, ";
  ln "         transform< ";
  ln "           repeated<sequence<plus_token, int_token>>, ";
  ln "           boost::mpl::lambda< ";
  ln "             boost::mpl::fold< ";
  ln "               boost::mpl::_1, ";
  ln "               boost::mpl::int_<0>, ";
  ln "               boost::mpl::quote2<sum_items> ";
  ln "             > ";
  ln "           >::type ";
  ln "         > ";
  ln "       >, ";
  ln "       boost::mpl::quote1<sum_vector> /* summarise the vector of numbers */ ";
  ln "     > ";
  ln "   >;";
  ln "  #include <boost/metaparse/foldl.hpp>";
  ln "";
  ln "  using exp_parser10 = ";
  ln "   build_parser< ";
  ln "     transform< ";
  ln "       sequence< ";
  ln "         int_token, ";
  ln "         foldl< ";
  ln "           sequence<plus_token, int_token>, ";
  ln "           boost::mpl::int_<0>, ";
  ln "           boost::mpl::quote2<sum_items> ";
  ln "         > ";
  ln "       >, ";
  ln "       boost::mpl::quote1<sum_vector>> ";
  ln "   >;";
  ln "  #include <boost/metaparse/foldl_start_with_parser.hpp>";
  ln "";
  ln "  using exp_parser11 = ";
  ln "   build_parser< ";
  ln "     foldl_start_with_parser< ";
  ln "       sequence<plus_token, int_token>, /* apply this parser repeatedly */ ";
  ln "       int_token, /* use this parser to get the initial value */ ";
  ln "       boost::mpl::quote2<sum_items> /* use this function to add a new value to the summary */ ";
  ln "     > ";
  ln "   >;";
  ln "  using minus_token = token<lit_c<'-'>>;";
  ln "";
  ln "  #include <boost/metaparse/one_of.hpp>";
  ln "";
  ln "  using exp_parser12 = ";
  ln "   build_parser< ";
  ln "     foldl_start_with_parser< ";
  ln "       sequence<one_of<plus_token, minus_token>, int_token>, ";
  ln "       int_token, ";
  ln "       boost::mpl::quote2<sum_items> ";
  ln "     > ";
  ln "   >;";
  ln "  #include <boost/mpl/minus.hpp>";
  ln "";
  ln "  template <class L, char Op, class R> struct eval_binary_op;";
  ln "";
  ln "  template <class L, class R> struct eval_binary_op<L, '+', R> : boost::mpl::plus<L, R>::type {};";
  ln "";
  ln "  template <class L, class R> struct eval_binary_op<L, '-', R> : boost::mpl::minus<L, R>::type {};";
  ln "";
  ln "  template <class S, class Item> ";
  ln "   struct binary_op : ";
  ln "     eval_binary_op< ";
  ln "       S, ";
  ln "       boost::mpl::at_c<Item, 0>::type::value, ";
  ln "       typename boost::mpl::at_c<Item, 1>::type ";
  ln "     > ";
  ln "     {};";
  ln "";
  ln "  using exp_parser13 = ";
  ln "   build_parser< ";
  ln "     foldl_start_with_parser< ";
  ln "       sequence<one_of<plus_token, minus_token>, int_token>, ";
  ln "       int_token, ";
  ln "       boost::mpl::quote2<binary_op> ";
  ln "     > ";
  ln "   >;";
  ln "  #include <boost/mpl/times.hpp>";
  ln "";
  ln "  template <class L, class R> struct eval_binary_op<L, '*', R> : boost::mpl::times<L, R>::type {};";
  ln "";
  ln "  using times_token = token<lit_c<'*'>>;";
  ln "";
  ln "  using exp_parser14 = ";
  ln "   build_parser< ";
  ln "     foldl_start_with_parser< ";
  ln "       sequence<one_of<plus_token, minus_token, times_token>, int_token>, ";
  ln "       int_token, ";
  ln "       boost::mpl::quote2<binary_op> ";
  ln "     > ";
  ln "   >;";
  ln "  using mult_exp1 = foldl_start_with_parser<sequence<times_token, int_token>, int_token, boost::mpl::quote2<binary_op>>;";
  ln "";
  ln "  using exp_parser15 = ";
  ln "   build_parser< ";
  ln "     foldl_start_with_parser< ";
  ln "       sequence<one_of<plus_token, minus_token>, mult_exp1>, ";
  ln "       mult_exp1, ";
  ln "       boost::mpl::quote2<binary_op> ";
  ln "     > ";
  ln "   >;";
  ln "  #include <boost/mpl/divides.hpp>";
  ln "";
  ln "  template <class L, class R> struct eval_binary_op<L, '/', R> : boost::mpl::divides<L, R>::type {};";
  ln "";
  ln "  using divides_token = token<lit_c<'/'>>;";
  ln "";
  ln "  using mult_exp2 = ";
  ln "   foldl_start_with_parser< ";
  ln "     sequence<one_of<times_token, divides_token>, int_token>, ";
  ln "     int_token, ";
  ln "     boost::mpl::quote2<binary_op> ";
  ln "   >;";
  ln "";
  ln "  using exp_parser16 = ";
  ln "   build_parser< ";
  ln "     foldl_start_with_parser< ";
  ln "       sequence<one_of<plus_token, minus_token>, mult_exp2>, ";
  ln "       mult_exp2, ";
  ln "       boost::mpl::quote2<binary_op> ";
  ln "     > ";
  ln "   >;";
  ln "  template <class S, class Item> ";
  ln "   struct reverse_binary_op : ";
  ln "     eval_binary_op< ";
  ln "       typename boost::mpl::at_c<Item, 0>::type, ";
  ln "       boost::mpl::at_c<Item, 1>::type::value, ";
  ln "       S ";
  ln "     > ";
  ln "     {};";
  ln "";
  ln "  #include <boost/metaparse/foldr_start_with_parser.hpp>";
  ln "";
  ln "  using mult_exp3 = ";
  ln "   foldr_start_with_parser< ";
  ln "     sequence<int_token, one_of<times_token, divides_token>>, /* The parser applied repeatedly */ ";
  ln "     int_token, /* The parser parsing the last number */ ";
  ln "     boost::mpl::quote2<reverse_binary_op> /* The function called for every result */ ";
  ln "                                           /* of applying the above parser */ ";
  ln "   >;";
  ln "";
  ln "  using exp_parser17 = ";
  ln "   build_parser< ";
  ln "     foldl_start_with_parser< ";
  ln "       sequence<one_of<plus_token, minus_token>, mult_exp3>, ";
  ln "       mult_exp3, ";
  ln "       boost::mpl::quote2<binary_op> ";
  ln "     > ";
  ln "   >;";
  ln "  #include <boost/mpl/negate.hpp>";
  ln "";
  ln "  using unary_exp1 = ";
  ln "   foldr_start_with_parser< ";
  ln "     minus_token, ";
  ln "     int_token, ";
  ln "     boost::mpl::lambda<boost::mpl::negate<boost::mpl::_1>>::type ";
  ln "   >;";
  ln "";
  ln "  using mult_exp4 = ";
  ln "   foldl_start_with_parser< ";
  ln "     sequence<one_of<times_token, divides_token>, unary_exp1>, ";
  ln "     unary_exp1, ";
  ln "     boost::mpl::quote2<binary_op> ";
  ln "   >;";
  ln "";
  ln "  using exp_parser18 = ";
  ln "   build_parser< ";
  ln "     foldl_start_with_parser< ";
  ln "       sequence<one_of<plus_token, minus_token>, mult_exp4>, ";
  ln "       mult_exp4, ";
  ln "       boost::mpl::quote2<binary_op> ";
  ln "     > ";
  ln "   >;";
  ln "  using lparen_token = token<lit_c<'('>>;";
  ln "";
  ln "  using rparen_token = token<lit_c<')'>>;";
  ln "";
  ln "  using plus_exp1 = ";
  ln "   foldl_start_with_parser< ";
  ln "     sequence<one_of<plus_token, minus_token>, mult_exp4>, ";
  ln "     mult_exp4, ";
  ln "     boost::mpl::quote2<binary_op> ";
  ln "   >;";
  ln "";
  ln "  using paren_exp1 = sequence<lparen_token, plus_exp1, rparen_token>;";
  ln "";
  ln "  #include <boost/metaparse/middle_of.hpp>";
  ln "";
  ln "  using paren_exp2 = middle_of<lparen_token, plus_exp1, rparen_token>;";
  ln "";
  ln "  using primary_exp1 = one_of<int_token, paren_exp2>;";
  ln "";
  ln "  struct plus_exp2;";
  ln "";
  ln "  using paren_exp3 = middle_of<lparen_token, plus_exp2, rparen_token>;";
  ln "";
  ln "  using primary_exp2 = one_of<int_token, paren_exp2>;";
  ln "";
  ln "  using unary_exp2 = ";
  ln "   foldr_start_with_parser< ";
  ln "     minus_token, ";
  ln "     primary_exp2, ";
  ln "     boost::mpl::lambda<boost::mpl::negate<boost::mpl::_1>>::type ";
  ln "   >;";
  ln "";
  ln "  using mult_exp5 = ";
  ln "   foldl_start_with_parser< ";
  ln "     sequence<one_of<times_token, divides_token>, unary_exp2>, ";
  ln "     unary_exp2, ";
  ln "     boost::mpl::quote2<binary_op> ";
  ln "   >;";
  ln "";
  ln "  struct plus_exp2 : ";
  ln "   foldl_start_with_parser< ";
  ln "     sequence<one_of<plus_token, minus_token>, mult_exp5>, ";
  ln "     mult_exp5, ";
  ln "     boost::mpl::quote2<binary_op> ";
  ln "   > {};";
  ln "";
  ln "  using exp_parser19 = build_parser<plus_exp2>;";
  ln "  #include <boost/metaparse/define_error.hpp>";
  ln "";
  ln "  BOOST_METAPARSE_DEFINE_ERROR(missing_primary_expression, ""Missing primary expression"");";
  ln "";
  ln "  struct plus_exp3;";
  ln "";
  ln "  using paren_exp4 = middle_of<lparen_token, plus_exp3, rparen_token>;";
  ln "";
  ln "  #include <boost/metaparse/fail.hpp>";
  ln "";
  ln "  using primary_exp3 = one_of<int_token, paren_exp4, fail<missing_primary_expression>>;";
  ln "";
  ln "  using unary_exp3 = ";
  ln "   foldr_start_with_parser< ";
  ln "     minus_token, ";
  ln "     primary_exp3, ";
  ln "     boost::mpl::lambda<boost::mpl::negate<boost::mpl::_1>>::type ";
  ln "   >;";
  ln "";
  ln "  using mult_exp6 = ";
  ln "   foldl_start_with_parser< ";
  ln "     sequence<one_of<times_token, divides_token>, unary_exp3>, ";
  ln "     unary_exp3, ";
  ln "     boost::mpl::quote2<binary_op> ";
  ln "   >;";
  ln "";
  ln "  struct plus_exp3 : ";
  ln "   foldl_start_with_parser< ";
  ln "     sequence<one_of<plus_token, minus_token>, mult_exp6>, ";
  ln "     mult_exp6, ";
  ln "     boost::mpl::quote2<binary_op> ";
  ln "   > {};";
  ln "";
  ln "  using exp_parser20 = build_parser<plus_exp3>;";
  ln "  #include <boost/metaparse/fail_at_first_char_expected.hpp>";
  ln "";
  ln "  #include <boost/metaparse/first_of.hpp>";
  ln "";
  ln "  struct plus_exp4 : ";
  ln "   first_of< ";
  ln "     foldl_start_with_parser< ";
  ln "       sequence<one_of<plus_token, minus_token>, mult_exp6>, ";
  ln "       mult_exp6, ";
  ln "       boost::mpl::quote2<binary_op> ";
  ln "     >, ";
  ln "     fail_at_first_char_expected< ";
  ln "       sequence<one_of<plus_token, minus_token>, mult_exp6> ";
  ln "     > ";
  ln "   > {};";
  ln "";
  ln "  using exp_parser21 = build_parser<plus_exp4>;";
  ln "  #include <boost/metaparse/foldl_reject_incomplete_start_with_parser.hpp>";
  ln "";
  ln "  struct plus_exp5 : ";
  ln "   foldl_reject_incomplete_start_with_parser< ";
  ln "     sequence<one_of<plus_token, minus_token>, mult_exp6>, ";
  ln "     mult_exp6, ";
  ln "     boost::mpl::quote2<binary_op> ";
  ln "   > {};";
  ln "";
  ln "  using exp_parser22 = build_parser<plus_exp5>;";
  ln ""].

(** doc/before_12.qbk *)
Definition pages_7 : list str := [
  ln "[#before_12]";
  ln "['Definitions before section 12.]";
  ln "";
  ln "  #include <boost/metaparse/string.hpp>";
  ln "  #include <boost/metaparse/int_.hpp>";
  ln "";
  ln "  #include <boost/metaparse/build_parser.hpp>";
  ln "";
  ln "  using namespace boost::metaparse;";
  ln "";
  ln "  using exp_parser1 = build_parser<int_>;";
  ln "  #include <boost/metaparse/entire_input.hpp>";
  ln "";
  ln "  using exp_parser2 = build_parser<entire_input<int_>>;";
  ln "  #include <boost/metaparse/token.hpp>";
  ln "";
  ln "  using exp_parser3 = build_parser<entire_input<token<int_>>>;";
  ln "  #include <boost/metaparse/lit_c.hpp>";
  ln "";
  ln "  #include <boost/metaparse/sequence.hpp>";
  ln "";
  ln "  using exp_parser4 = build_parser<sequence<token<int_>, token<lit_c<'+'>>, token<int_>>>;";
  ln "";
  ln "  #include <metashell/formatter.hpp>";
  ln "  ";
  ln "  using int_token = token<int_>;";
  ln "";
  ln "  using plus_token = token<lit_c<'+'>>;";
  ln "";
  ln "  using exp_parser5 = build_parser<sequence<int_token, plus_token, int_token>>;";
  ln "  #include <boost/metaparse/transform.hpp>";
  ln "";
  ln "  #include <boost/mpl/plus.hpp>";
  ln "";
  ln "  #include <boost/mpl/at.hpp>";
  ln "";
  ln "  template <class Vector> ";
  ln "   struct eval_plus : ";
  ln "     boost::mpl::plus< ";
  ln "       typename boost::mpl::at_c<Vector, 0>::type, ";
  ln "       typename boost::mpl::at_c<Vector, 2>::type ";
  ln "     > {};";
  ln "";
  ln "  #include <boost/mpl/quote.hpp>";
  ln "";
  ln "  using exp_parser6 = ";
  ln "   build_parser< ";
  ln "     transform< ";
  ln "       sequence<int_token, plus_token, int_token>, ";
  ln "       boost::mpl::quote1<eval_plus> ";
  ln "     > ";
  ln "   >;";
  ln "  #include <boost/metaparse/any.hpp>";
  ln "";
  ln "  using exp_parser7 = ";
  ln "   build_parser< ";
  ln "     sequence< ";
  ln "       int_token,                                /* The first <number> */ ";
  ln "       repeated<sequence<plus_token, int_token>> /* The ""+ <number>"" elements */ ";
  ln "     > ";
  ln "   >;";
  ln "  using temp_result = exp_parser7::apply<BOOST_METAPARSE_STRING(""1 + 2 + 3 + 4"")>::type;";
  ln "  #include <boost/mpl/fold.hpp>";
  ln "";
  ln "  using vector_of_numbers = ";
  ln "   boost::mpl::vector< ";
  ln "     boost::mpl::int_<2>, ";
  ln "     boost::mpl::int_<5>, ";
  ln "     boost::mpl::int_<6> ";
  ln "   >;";
  ln "";
  ln "  template <class Vector> ";
  ln "   struct sum_vector : ";
  ln "      boost::mpl::fold< ";
  ln "        Vector, ";
  ln "        boost::mpl::int_<0>, ";
  ln "        boost::mpl::lambda< ";
  ln "          boost::mpl::plus<boost::mpl::_1, boost::mpl::_2> ";
  ln "        >::type ";
  ln "      > ";
  ln "    {};";
  ln "";
  ln "  template <class Sum, class Item> ";
  ln "     struct sum_items : ";
  ln "       boost::mpl::plus< ";
  ln "         Sum, ";
  ln "         typename boost::mpl::at_c<Item, 1>::type ";
  ln "       > ";
  ln "   {};";
  ln "  using exp_parser8 = ";
  ln "   build_parser< ";
  ln "     sequence< ";
  ln "       int_token, /* parse the first <number> */ ";
  ln "       transform< ";
  ln "         repeated<sequence<plus_token, int_token>>, /* parse the ""+ <number>"" elements */ ";
  ln "         /* lambda expression summarising the ""+ <number>"" elements using fold */ ";
  ln "         boost::mpl::lambda< ";
  ln "           /* The folding expression we have just created */ ";
  ln "           boost::mpl::fold< ";
  ln "             boost::mpl::_1, /* the argument of the lambda expression, the result */ ";
  ln "                             /* of the repeated<...> parser */ ";
  ln "             boost::mpl::int_<0>, ";
  ln "             boost::mpl::quote2<sum_items> ";
  ln "           > ";
  ln "         >::type ";
  ln "       > ";
  ln "     > ";
  ln "   >;";
  ln "";
  ln "  using exp_parser9 = ";
  ln "   build_parser< ";
  ln "     transform< ";
  ln "       /* What we had so far */ ";
  ln "       sequence< ";
  ln "         int_token, ";
  ln "         transform< ";
  ln "           repeated<sequence<plus_token, int_token>>, ";
  ln "           boost::mpl::lambda< ";
  ln "             boost::mpl::fold< ";
  ln "               boost::mpl::_1, ";
  ln "               boost::mpl::int_<0>, ";
  ln "               boost::mpl::quote2<sum_items> ";
  ln "             > ";
  ln "           >::type ";
  ln "         > ";
  ln "       >, ";
  ln "       boost::mpl::quote1<sum_vector> /* summarise the vector of numbers */ ";
  ln "     > ";
  ln "   >;";
  ln "  #include <boost/metaparse/foldl.hpp>";
  ln "";
  ln "  using exp_parser10 = ";
  ln "   build_parser< ";
  ln "     transform< ";
  ln "       sequence< ";
  ln "         int_token, ";
  ln "         foldl< ";
  ln "           sequence<plus_token, int_token>, ";
  ln "           boost::mpl::int_<0>, ";
  ln "           boost::mpl::quote2<sum_items> ";
  ln "         > ";
  ln "       >, ";
  ln "       boost::mpl::quote1<sum_vector>> ";
  ln "   >;";
  ln "  #include <boost/metaparse/foldl_start_with_parser.hpp>";
  ln "";
  ln "  using exp_parser11 = ";
  ln "   build_parser< ";
  ln "     foldl_start_with_parser< ";
  ln "       sequence<plus_token, int_token>, /* apply this parser repeatedly */ ";
  ln "       int_token, /* use this parser to get the initial value */ ";
  ln "       boost::mpl::quote2<sum_items> /* use this function to add a new value to the summary */ ";
  ln "     > ";
  ln "   >;";
  ln "  using minus_token = token<lit_c<'-'>>;";
  ln "";
  ln "  #include <boost/metaparse/one_of.hpp>";
  ln "";
  ln "  using exp_parser12 = ";
  ln "   build_parser< ";
  ln "     foldl_start_with_parser< ";
  ln "       sequence<one_of<plus_token, minus_token>, int_token>, ";
  ln "       int_token, ";
  ln "       boost::mpl::quote2<sum_items> ";
  ln "     > ";
  ln "   >;";
  ln "  #include <boost/mpl/minus.hpp>";
  ln "";
  ln "  template <class L, char Op, class R> struct eval_binary_op;";
  ln "";
  ln "  template <class L, class R> struct eval_binary_op<L, '+', R> : boost::mpl::plus<L, R>::type {};";
  ln "";
  ln "  template <class L, class R> struct eval_binary_op<L, '-', R> : boost::mpl::minus<L, R>::type {};";
  ln "";
  ln "  template <class S, class Item> ";
  ln "   struct binary_op : ";
  ln "     eval_binary_op< ";
  ln "       S, ";
  ln "       boost::mpl::at_c<Item, 0>::type::value, ";
  ln "       typename boost::mpl::at_c<Item, 1>::type ";
  ln "     > ";
  ln "     {};";
  ln "";
  ln "  using exp_parser13 = ";
  ln "   build_parser< ";
  ln "     foldl_start_with_parser< ";
  ln "       sequence<one_of<plus_token, minus_token>, int_token>, ";
  ln "       int_token, ";
  ln "       boost::mpl::quote2<binary_op> ";
  ln "     > ";
  ln "   >;";
  ln "  #include <boost/mpl/times.hpp>";
  ln "";
  ln "  template <class L, class R> struct eval_binary_op<L, '*', R> : boost::mpl::times<L, R>::type {};";
  ln "";
  ln "  using times_token = token<lit_c<'*'>>;";
  ln "";
  ln "  using exp_parser14 = ";
  ln "   build_parser< ";
  ln "     foldl_start_with_parser< ";
  ln "       sequence<one_of<plus_token, minus_token, times_token>, int_token>, ";
  ln "       int_token, ";
  ln "       boost::mpl::quote2<binary_op> ";
  ln "     > ";
  ln "   >;";
  ln "  using mult_exp1 = foldl_start_with_parser<sequence<times_token, int_token>, int_token, boost::mpl::quote2<binary_op>>;";
  ln "";
  ln "  using exp_parser15 = ";
  ln "   build_parser< ";
  ln "     foldl_start_with_parser< ";
  ln "       sequence<one_of<plus_token, minus_token>, mult_exp1>, ";
  ln "       mult_exp1, ";
  ln "       boost::mpl::quote2<binary_op> ";
  ln "     > ";
  ln "   >;";
  ln "  #include <boost/mpl/divides.hpp>";
  ln "";
  ln "  template <class L, class R> struct eval_binary_op<L, '/', R> : boost::mpl::divides<L, R>::type {};";
  ln "";
  ln "  using divides_token = token<lit_c<'/'>>;";
  ln "";
  ln "  using mult_exp2 = ";
  ln "   foldl_start_with_parser< ";
  ln "     sequence<one_of<times_token, divides_token>, int_token>, ";
  ln "     int_token, ";
  ln "     boost::mpl::quote2<binary_op> ";
  ln "   >;";
  ln "";
  ln "  using exp_parser16 = ";
  ln "   build_parser< ";
  ln "     foldl_start_with_parser< ";
  ln "       sequence<one_of<plus_token, minus_token>, mult_exp2>, ";
  ln "       mult_exp2, ";
  ln "       boost::mpl::quote2<binary_op> ";
  ln "     > ";
  ln "   >;";
  ln "  template <class S, class Item> ";
  ln "   struct reverse_binary_op : ";
  ln "     eval_binary_op< ";
  ln "       typename boost::mpl::at_c<Item, 0>::type, ";
  ln "       boost::mpl::at_c<Item, 1>::type::value, ";
  ln "       S ";
  ln "     > ";
  ln "     {};";
  ln "";
  ln "  #include <boost/metaparse/foldr_start_with_parser.hpp>";
  ln "";
  ln "  using mult_exp3 = ";
  ln "   foldr_start_with_parser< ";
  ln "     sequence<int_token, one_of<times_token, divides_token>>, /* The parser applied repeatedly */ ";
  ln "     int_token, /* The parser parsing the last number */ ";
  ln "     boost::mpl::quote2<reverse_binary_op> /* The function called for every result */ ";
  ln "                                           /* of applying the above parser */ ";
  ln "   >;";
  ln "";
  ln "  using exp_parser17 = ";
  ln "   build_parser< ";
  ln "     foldl_start_with_parser< ";
  ln "       sequence<one_of<plus_token, minus_token>, mult_exp3>, ";
  ln "       mult_exp3, ";
  ln "       boost::mpl::quote2<binary_op> ";
  ln "     > ";
  ln "   >;";
  ln "  #include <boost/mpl/negate.hpp>";
  ln "";
  ln "  using unary_exp1 = ";
  ln "   foldr_start_with_parser< ";
  ln "     minus_token, ";
  ln "     int_token, ";
  ln "     boost::mpl::lambda<boost::mpl::negate<boost::mpl::_1>>::type ";
  ln "   >;";
  ln "";
  ln "  using mult_exp4 = ";
  ln "   foldl_start_with_parser< ";
  ln "     sequence<one_of<times_token, divides_token>, unary_exp1>, ";
  ln "     unary_exp1, ";
  ln "     boost::mpl::quote2<binary_op> ";
  ln "   >;";
  ln "";
  ln "  using exp_parser18 = ";
  ln "   build_parser< ";
  ln "     foldl_start_with_parser< ";
  ln "       sequence<one_of<plus_token, minus_token>, mult_exp4>, ";
  ln "       mult_exp4, ";
  ln "       boost::mpl::quote2<binary_op> ";
  ln "     > ";
  ln "   >;";
  ln "  using lparen_token = token<lit_c<'('>>;";
  ln "";
  ln "  using rparen_token = token<lit_c<')'>>;";
  ln "";
  ln "  using plus_exp1 = ";
  ln "   foldl_start_with_parser< ";
  ln "     sequence<one_of<plus_token, minus_token>, mult_exp4>, ";
  ln "     mult_exp4, ";
  ln "     boost::mpl::quote2<binary_op> ";
  ln "   >;";
  ln "";
  ln "  using paren_exp1 = sequence<lparen_token, plus_exp1, rparen_token>;";
  ln "";
  ln "  #include <boost/metaparse/middle_of.hpp>";
  ln "";
  ln "  using paren_exp2 = middle_of<lparen_token, plus_exp1, rparen_token>;";
  ln "";
  ln "  using primary_exp1 = one_of<int_token, paren_exp2>;";
  ln "";
  ln "  struct plus_exp2;";
  ln "";
  ln "  using paren_exp3 = middle_of<lparen_token, plus_exp2, rparen_token>;";
  ln "";
  ln "  using primary_exp2 = one_of<int_token, paren_exp2>;";
  ln "";
  ln "  using unary_exp2 = ";
  ln "   foldr_start_with_parser< ";
  ln "     minus_token, ";
  ln "     primary_exp2, ";
  ln "     boost::mpl::lambda<boost::mpl::negate<boost::mpl::_1>>::type ";
  ln "   >;";
  ln "";
  ln "  using mult_exp5 = ";
  ln "   foldl_start_with_parser< ";
  ln "     sequence<one_of<times_token, divides_token>, unary_exp2>, ";
  ln "     unary_exp2, ";
  ln "     boost::mpl::quote2<binary_op> ";
  ln "   >;";
  ln "";
  ln "  struct plus_exp2 : ";
  ln "   foldl_start_with_parser< ";
  ln "     sequence<one_of<plus_token, minus_token>, mult_exp5>, ";
  ln "     mult_exp5, ";
  ln "     boost::mpl::quote2<binary_op> ";
  ln "   > {};";
  ln "";
  ln "  using exp_parser19 = build_parser<plus_exp2>;";
  ln "  #include <boost/metaparse/define_error.hpp>";
  ln "";
  ln "  BOOST_METAPARSE_DEFINE_ERROR(missing_primary_expression, ""Missing primary expression"");";
  ln "";
  ln "  struct plus_exp3;";
  ln "";
  ln "  using paren_exp4 = middle_of<lparen_token, plus_exp3, rparen_token>;";
  ln "";
  ln "  #include <boost/metaparse/fail.hpp>";
  ln "";
  ln "  using primary_exp3 = one_of<int_token, paren_exp4, fail<missing_primary_expression>>;";
  ln "";
  ln "  using unary_exp3 = ";
  ln "   foldr_start_with_parser< ";
  ln "     minus_token, ";
  ln "     primary_exp3, ";
  ln "     boost::mpl::lambda<boost::mpl::negate<boost::mpl::_1>>::type ";
  ln "   >;";
  ln "";
  ln "  using mult_exp6 = ";
  ln "   foldl_start_with_parser< ";
  ln "     sequence<one_of<times_token, divides_token>, unary_exp3>, ";
  ln "     unary_exp3, ";
  ln "     boost::mpl::quote2<binary_op> ";
  ln "   >;";
  ln "";
  ln "  struct plus_exp3 : ";
  ln "   foldl_start_with_parser< ";
  ln "     sequence<one_of<plus_token, minus_token>, mult_exp6>, ";
  ln "     mult_exp6, ";
  ln "     boost::mpl::quote2<binary_op> ";
  ln "   > {};";
  ln "";
  ln "  using exp_parser20 = build_parser<plus_exp3>;";
  ln "  #include <boost/metaparse/fail_at_first_char_expected.hpp>";
  ln "";
  ln "  #include <boost/metaparse/first_of.hpp>";
  ln "";
  ln "  struct plus_exp4 : ";
  ln "   first_of< ";
  ln "     foldl_start_with_parser< ";
  ln "       sequence<one_of<plus_token, minus_token>, mult_exp6>, ";
  ln "       mult_exp6, ";
  ln "       boost::mpl::quote2<binary_op> ";
  ln "     >, ";
  ln "     fail_at_first_char_expected< ";
  ln "       sequence<one_of<plus_token, minus_token>, mult_exp6> ";
  ln "     > ";
  ln "   > {};";
  ln "";
  ln "  using exp_parser21 = build_parser<plus_exp4>;";
  ln "  #include <boost/metaparse/foldl_reject_incomplete_start_with_parser.hpp>";
  ln "";
  ln "  struct plus_exp5 : ";
  ln "   foldl_reject_incomplete_start_with_parser< ";
  ln "     sequence<one_of<plus_token, minus_token>, mult_exp6>, ";
  ln "     mult_exp6, ";
  ln "     boost::mpl::quote2<binary_op> ";
  ln "   > {};";
  ln "";
  ln "  using exp_parser22 = build_parser<plus_exp5>;";
  ln "  struct plus_exp6;";
  ln "";
  ln "  using paren_exp5 = middle_of<lparen_token, plus_exp6, rparen_token>;";
  ln "";
  ln "  using primary_exp4 = one_of<int_token, paren_exp5, fail<missing_primary_expression>>;";
  ln "";
  ln "  using unary_exp4 = ";
  ln "   foldr_start_with_parser< ";
  ln "     minus_token, ";
  ln "     primary_exp4, ";
  ln "     boost::mpl::lambda<boost::mpl::negate<boost::mpl::_1>>::type ";
  ln "   >;";
  ln "";
  ln "  using mult_exp7 = ";
  ln "   foldl_reject_incomplete_start_with_parser< ";
  ln "     sequence<one_of<times_token, divides_token>, unary_exp4>, ";
  ln "     unary_exp4, ";
  ln "     boost::mpl::quote2<binary_op> ";
  ln "   >;";
  ln "";
  ln "  struct plus_exp6 : ";
  ln "   foldl_reject_incomplete_start_with_parser< ";
  ln "     sequence<one_of<plus_token, minus_token>, mult_exp7>, ";
  ln "     mult_exp7, ";
  ln "     boost::mpl::quote2<binary_op> ";
  ln "   > {};";
  ln "";
  ln "  using exp_parser23 = build_parser<plus_exp6>;";
  ln ""].

(** doc/before_3.qbk *)
Definition pages_8 : list str := [
  ln "[#before_3]";
  ln "['Definitions before section 3.]";
  ln "";
  ln "  #include <boost/metaparse/string.hpp>";
  ln ""].

(** doc/before_3_1.qbk *)
Definition pages_9 : list str := [
  ln "[#before_3_1]";
  ln "['Definitions before section 3.1.]";
  ln "";
  ln "  #include <boost/metaparse/string.hpp>";
  ln "  #include <boost/metaparse/int_.hpp>";
  ln "";
  ln "  #include <boost/metaparse/build_parser.hpp>";
  ln "";
  ln "  using namespace boost::metaparse;";
  ln "";
  ln "  using exp_parser1 = build_parser<int_>;";
  ln ""].

(** doc/before_3_2.qbk *)
Definition pages_10 : list str := [
  ln "[#before_3_2]";
  ln "['Definitions before section 3.2.]";
  ln "";
  ln "  #include <boost/metaparse/string.hpp>";
  ln "  #include <boost/metaparse/int_.hpp>";
  ln "";
  ln "  #include <boost/metaparse/build_parser.hpp>";
  ln "";
  ln "  using namespace boost::metaparse;";
  ln "";
  ln "  using exp_parser1 = build_parser<int_>;";
  ln ""].

(** doc/before_3_3.qbk *)
Definition pages_11 : list str := [
  ln "[#before_3_3]";
  ln "['Definitions before section 3.3.]";
  ln "";
  ln "  #include <boost/metaparse/string.hpp>";
  ln "  #include <boost/metaparse/int_.hpp>";
  ln "";
  ln "  #include <boost/metaparse/build_parser.hpp>";
  ln "";
  ln "  using namespace boost::metaparse;";
  ln "";
  ln "  using exp_parser1 = build_parser<int_>;";
  ln "  #include <boost/metaparse/entire_input.hpp>";
  ln "";
  ln "  using exp_parser2 = build_parser<entire_input<int_>>;";
  ln ""].

(** doc/before_4.qbk *)
Definition pages_12 : list str := [
  ln "[#before_4]";
  ln "['Definitions before section 4.]";
  ln "";
  ln "  #include <boost/metaparse/string.hpp>";
  ln "  #include <boost/metaparse/int_.hpp>";
  ln "";
  ln "  #include <boost/metaparse/build_parser.hpp>";
  ln "";
  ln "  using namespace boost::metaparse;";
  ln "";
  ln "  using exp_parser1 = build_parser<int_>;";
  ln "  #include <boost/metaparse/entire_input.hpp>";
  ln "";
  ln "  using exp_parser2 = build_parser<entire_input<int_>>;";
  ln "  #include <boost/metaparse/token.hpp>";
  ln "";
  ln "  using exp_parser3 = build_parser<entire_input<token<int_>>>;";
  ln ""].

(** doc/before_4_1.qbk *)
Definition pages_13 : list str := [
  ln "[#before_4_1]";
  ln "['Definitions before section 4.1.]";
  ln "";
  ln "  #include <boost/metaparse/string.hpp>";
  ln "  #include <boost/metaparse/int_.hpp>";
  ln "";
  ln "  #include <boost/metaparse/build_parser.hpp>";
  ln "";
  ln "  using namespace boost::metaparse;";
  ln "";
  ln "  using exp_parser1 = build_parser<int_>;";
  ln "  #include <boost/metaparse/entire_input.hpp>";
  ln "";
  ln "  using exp_parser2 = build_parser<entire_input<int_>>;";
  ln "  #include <boost/metaparse/token.hpp>";
  ln "";
  ln "  using exp_parser3 = build_parser<entire_input<token<int_>>>;";
  ln "  #include <boost/metaparse/lit_c.hpp>";
  ln "";
  ln "  #include <boost/metaparse/sequence.hpp>";
  ln "";
  ln "  using exp_parser4 = build_parser<sequence<token<int_>, token<lit_c<'+'>>, token<int_>>>;";
  ln "";
  ln "  #include <metashell/formatter.hpp>";
  ln "  ";
  ln ""].

(** doc/before_4_2.qbk *)
Definition pages_14 : list str := [
  ln "[#before_4_2]";
  ln "['Definitions before section 4.2.]";
  ln "";
  ln "  #include <boost/metaparse/string.hpp>";
  ln "  #include <boost/metaparse/int_.hpp>";
  ln "";
  ln "  #include <boost/metaparse/build_parser.hpp>";
  ln "";
  ln "  using namespace boost::metaparse;";
  ln "";
  ln "  using exp_parser1 = build_parser<int_>;";
  ln "  #include <boost/metaparse/entire_input.hpp>";
  ln "";
  ln "  using exp_parser2 = build_parser<entire_input<int_>>;";
  ln "  #include <boost/metaparse/token.hpp>";
  ln "";
  ln "  using exp_parser3 = build_parser<entire_input<token<int_>>>;";
  ln "  #include <boost/metaparse/lit_c.hpp>";
  ln "";
  ln "  #include <boost/metaparse/sequence.hpp>";
  ln "";
  ln "  using exp_parser4 = build_parser<sequence<token<int_>, token<lit_c<'+'>>, token<int_>>>;";
  ln "";
  ln "  #include <metashell/formatter.hpp>";
  ln "  ";
  ln "  using int_token = token<int_>;";
  ln "";
  ln "  using plus_token = token<lit_c<'+'>>;";
  ln "";
  ln "  using exp_parser5 = build_parser<sequence<int_token, plus_token, int_token>>;";
  ln ""].

(** doc/before_5.qbk *)
Definition pages_15 : list str := [
  ln "[#before_5]";
  ln "['Definitions before section 5.]";
  ln "";
  ln "  #include <boost/metaparse/string.hpp>";
  ln "  #include <boost/metaparse/int_.hpp>";
  ln "";
  ln "  #include <boost/metaparse/build_parser.hpp>";
  ln "";
  ln "  using namespace boost::metaparse;";
  ln "";
  ln "  using exp_parser1 = build_parser<int_>;";
  ln "  #include <boost/metaparse/entire_input.hpp>";
  ln "";
  ln "  using exp_parser2 = build_parser<entire_input<int_>>;";
  ln "  #include <boost/metaparse/token.hpp>";
  ln "";
  ln "  using exp_parser3 = build_parser<entire_input<token<int_>>>;";
  ln "  #include <boost/metaparse/lit_c.hpp>";
  ln "";
  ln "  #include <boost/metaparse/sequence.hpp>";
  ln "";
  ln "  using exp_parser4 = build_parser<sequence<token<int_>, token<lit_c<'+'>>, token<int_>>>;";
  ln "";
  ln "  #include <metashell/formatter.hpp>";
  ln "  ";
  ln "  using int_token = token<int_>;";
  ln "";
  ln "  using plus_token = token<lit_c<'+'>>;";
  ln "";
  ln "  using exp_parser5 = build_parser<sequence<int_token, plus_token, int_token>>;";
  ln "  #include <boost/metaparse/transform.hpp>";
  ln "";
  ln "  #include <boost/mpl/plus.hpp>";
  ln "";
  ln "  #include <boost/mpl/at.hpp>";
  ln "";
  ln "  template <class Vector> ";
  ln "   struct eval_plus : ";
  ln "     boost::mpl::plus< ";
  ln "       typename boost::mpl::at_c<Vector, 0>::type, ";
  ln "       typename boost::mpl::at_c<Vector, 2>::type ";
  ln "     > {};";
  ln "";
  ln "  #include <boost/mpl/quote.hpp>";
  ln "";
  ln "  using exp_parser6 = ";
  ln "   build_parser< ";
  ln "     transform< ";
  ln "       sequence<int_token, plus_token, int_token>, ";
  ln "       boost::mpl::quote1<eval_plus> ";
  ln "     > ";
  ln "   >;";
  ln ""].

(** doc/before_5_1.qbk *)
Definition pages_16 : list str := [
  ln "[#before_5_1]";
  ln "['Definitions before section 5.1.]";
  ln "";
  ln "  #include <boost/metaparse/string.hpp>";
  ln "  #include <boost/metaparse/int_.hpp>";
  ln "";
  ln "  #include <boost/metaparse/build_parser.hpp>";
  ln "";
  ln "  using namespace boost::metaparse;";
  ln "";
  ln "  using exp_parser1 = build_parser<int_>;";
  ln "  #include <boost/metaparse/entire_input.hpp>";
  ln "";
  ln "  using exp_parser2 = build_parser<entire_input<int_>>;";
  ln "  #include <boost/metaparse/token.hpp>";
  ln "";
  ln "  using exp_parser3 = build_parser<entire_input<token<int_>>>;";
  ln "  #include <boost/metaparse/lit_c.hpp>";
  ln "";
  ln "  #include <boost/metaparse/sequence.hpp>";
  ln "";
  ln "  using exp_parser4 = build_parser<sequence<token<int_>, token<lit_c<'+'>>, token<int_>>>;";
  ln "";
  ln "  #include <metashell/formatter.hpp>";
  ln "  ";
  ln "  using int_token = token<int_>;";
  ln "";
  ln "  using plus_token = token<lit_c<'+'>>;";
  ln "";
  ln "  using exp_parser5 = build_parser<sequence<int_token, plus_token, int_token>>;";
  ln "  #include <boost/metaparse/transform.hpp>";
  ln "";
  ln "  #include <boost/mpl/plus.hpp>";
  ln "";
  ln "  #include <boost/mpl/at.hpp>";
  ln "";
  ln "  template <class Vector> ";
  ln "   struct eval_plus : ";
  ln "     boost::mpl::plus< ";
  ln "       typename boost::mpl::at_c<Vector, 0>::type, ";
  ln "       typename boost::mpl::at_c<Vector, 2>::type ";
  ln "     > {};";
  ln "";
  ln "  #include <boost/mpl/quote.hpp>";
  ln "";
  ln "  using exp_parser6 = ";
  ln "   build_parser< ";
  ln "     transform< ";
  ln "       sequence<int_token, plus_token, int_token>, ";
  ln "       boost::mpl::quote1<eval_plus> ";
  ln "     > ";
  ln "   >;";
  ln ""].

(** doc/before_5_2.qbk *)
Definition pages_17 : list str := [
  ln "[#before_5_2]";
  ln "['Definitions before section 5.2.]";
  ln "";
  ln "  #include <boost/metaparse/string.hpp>";
  ln "  #include <boost/metaparse/int_.hpp>";
  ln "";
  ln "  #include <boost/metaparse/build_parser.hpp>";
  ln "";
  ln "  using namespace boost::metaparse;";
  ln "";
  ln "  using exp_parser1 = build_parser<int_>;";
  ln "  #include <boost/metaparse/entire_input.hpp>";
  ln "";
  ln "  using exp_parser2 = build_parser<entire_input<int_>>;";
  ln "  #include <boost/metaparse/token.hpp>";
  ln "";
  ln "  using exp_parser3 = build_parser<entire_input<token<int_>>>;";
  ln "  #include <boost/metaparse/lit_c.hpp>";
  ln "";
  ln "  #include <boost/metaparse/sequence.hpp>";
  ln "";
  ln "  using exp_parser4 = build_parser<sequence<token<int_>, token<lit_c<'+'>>, token<int_>>>;";
  ln "";
  ln "  #include <metashell/formatter.hpp>";
  ln "  ";
  ln "  using int_token = token<int_>;";
  ln "";
  ln "  using plus_token = token<lit_c<'+'>>;";
  ln "";
  ln "  using exp_parser5 = build_parser<sequence<int_token, plus_token, int_token>>;";
  ln "  #include <boost/metaparse/transform.hpp>";
  ln "";
  ln "  #include <boost/mpl/plus.hpp>";
  ln "";
  ln "  #include <boost/mpl/at.hpp>";
  ln "";
  ln "  template <class Vector> ";
  ln "   struct eval_plus : ";
  ln "     boost::mpl::plus< ";
  ln "       typename boost::mpl::at_c<Vector, 0>::type, ";
  ln "       typename boost::mpl::at_c<Vector, 2>::type ";
  ln "     > {};";
  ln "";
  ln "  #include <boost/mpl/quote.hpp>";
  ln "";
  ln "  using exp_parser6 = ";
  ln "   build_parser< ";
  ln "     transform< ";
  ln "       sequence<int_token, plus_token, int_token>, ";
  ln "       boost::mpl::quote1<eval_plus> ";
  ln "     > ";
  ln "   >;";
  ln "  #include <boost/metaparse/any.hpp>";
  ln "";
  ln "  using exp_parser7 = ";
  ln "   build_parser< ";
  ln "     sequence< ";
  ln "       int_token,                                /* The first <number> */ ";
  ln "       repeated<sequence<plus_token, int_token>> /* The ""+ <number>"" elements */ ";
  ln "     > ";
  ln "   >;";
  ln ""].

(** doc/before_5_2_1.qbk *)
Definition pages_18 : list str := [
  ln "[#before_5_2_1]";
  ln "['Definitions before section 5.2.1.]";
  ln "";
  ln "  #include <boost/metaparse/string.hpp>";
  ln "  #include <boost/metaparse/int_.hpp>";
  ln "";
  ln "  #include <boost/metaparse/build_parser.hpp>";
  ln "";
  ln "  using namespace boost::metaparse;";
  ln "";
  ln "  using exp_parser1 = build_parser<int_>;";
  ln "  #include <boost/metaparse/entire_input.hpp>";
  ln "";
  ln "  using exp_parser2 = build_parser<entire_input<int_>>;";
  ln "  #include <boost/metaparse/token.hpp>";
  ln "";
  ln "  using exp_parser3 = build_parser<entire_input<token<int_>>>;";
  ln "  #include <boost/metaparse/lit_c.hpp>";
  ln "";
  ln "  #include <boost/metaparse/sequence.hpp>";
  ln "";
  ln "  using exp_parser4 = build_parser<sequence<token<int_>, token<lit_c<'+'>>, token<int_>>>;";
  ln "";
  ln "  #include <metashell/formatter.hpp>";
  ln "  ";
  ln "  using int_token = token<int_>;";
  ln "";
  ln "  using plus_token = token<lit_c<'+'>>;";
  ln "";
  ln "  using exp_parser5 = build_parser<sequence<int_token, plus_token, int_token>>;";
  ln "  #include <boost/metaparse/transform.hpp>";
  ln "";
  ln "  #include <boost/mpl/plus.hpp>";
  ln "";
  ln "  #include <boost/mpl/at.hpp>";
  ln "";
  ln "  template <class Vector> ";
  ln "   struct eval_plus : ";
  ln "     boost::mpl::plus< ";
  ln "       typename boost::mpl::at_c<Vector, 0>::type, ";
  ln "       typename boost::mpl::at_c<Vector, 2>::type ";
  ln "     > {};";
  ln "";
  ln "  #include <boost/mpl/quote.hpp>";
  ln "";
  ln "  using exp_parser6 = ";
  ln "   build_parser< ";
  ln "     transform< ";
  ln "       sequence<int_token, plus_token, int_token>, ";
  ln "       boost::mpl::quote1<eval_plus> ";
  ln "     > ";
  ln "   >;";
  ln "  #include <boost/metaparse/any.hpp>";
  ln "";
  ln "  using exp_parser7 = ";
  ln "   build_parser< ";
  ln "     sequence< ";
  ln "       int_token,                                /* The first <number> */ ";
  ln "       repeated<sequence<plus_token, int_token>> /* The ""+ <number>"" elements */ ";
  ln "     > ";
  ln "   >;";
  ln "  using temp_result = exp_parser7::apply<BOOST_METAPARSE_STRING(""1 + 2 + 3 + 4"")>::type;";
  ln ""].

(** doc/before_5_2_2.qbk *)
Definition pages_19 : list str := [
  ln "[#before_5_2_2]";
  ln "['Definitions before section 5.2.2.]";
  ln "";
  ln "  #include <boost/metaparse/string.hpp>";
  ln "  #include <boost/metaparse/int_.hpp>";
  ln "";
  ln "  #include <boost/metaparse/build_parser.hpp>";
  ln "";
  ln "  using namespace boost::metaparse;";
  ln "";
  ln "  using exp_parser1 = build_parser<int_>;";
  ln "  #include <boost/metaparse/entire_input.hpp>";
  ln "";
  ln "  using exp_parser2 = build_parser<entire_input<int_>>;";
  ln "  #include <boost/metaparse/token.hpp>";
  ln "";
  ln "  using exp_parser3 = build_parser<entire_input<token<int_>>>;";
  ln "  #include <boost/metaparse/lit_c.hpp>";
  ln "";
  ln "  #include <boost/metaparse/sequence.hpp>";
  ln "";
  ln "  using exp_parser4 = build_parser<sequence<token<int_>, token<lit_c<'+'>>, token<int_>>>;";
  ln "";
  ln "  #include <metashell/formatter.hpp>";
  ln "  ";
  ln "  using int_token = token<int_>;";
  ln "";
  ln "  using plus_token = token<lit_c<'+'>>;";
  ln "";
  ln "  using exp_parser5 = build_parser<sequence<int_token, plus_token, int_token>>;";
  ln "  #include <boost/metaparse/transform.hpp>";
  ln "";
  ln "  #include <boost/mpl/plus.hpp>";
  ln "";
  ln "  #include <boost/mpl/at.hpp>";
  ln "";
  ln "  template <class Vector> ";
  ln "   struct eval_plus : ";
  ln "     boost::mpl::plus< ";
  ln "       typename boost::mpl::at_c<Vector, 0>::type, ";
  ln "       typename boost::mpl::at_c<Vector, 2>::type ";
  ln "     > {};";
  ln "";
  ln "  #include <boost/mpl/quote.hpp>";
  ln "";
  ln "  using exp_parser6 = ";
  ln "   build_parser< ";
  ln "     transform< ";
  ln "       sequence<int_token, plus_token, int_token>, ";
  ln "       boost::mpl::quote1<eval_plus> ";
  ln "     > ";
  ln "   >;";
  ln "  #include <boost/metaparse/any.hpp>";
  ln "";
  ln "  using exp_parser7 = ";
  ln "   build_parser< ";
  ln "     sequence< ";
  ln "       int_token,                                /* The first <number> */ ";
  ln "       repeated<sequence<plus_token, int_token>> /* The ""+ <number>"" elements */ ";
  ln "     > ";
  ln "   >;";
  ln "  using temp_result = exp_parser7::apply<BOOST_METAPARSE_STRING(""1 + 2 + 3 + 4"")>::type;";
  ln "  #include <boost/mpl/fold.hpp>";
  ln "";
  ln "  using vector_of_numbers = ";
  ln "   boost::mpl::vector< ";
  ln "     boost::mpl::int_<2>, ";
  ln "     boost::mpl::int_<5>, ";
  ln "     boost::mpl::int_<6> ";
  ln "   >;";
  ln "";
  ln "  template <class Vector> ";
  ln "   struct sum_vector : ";
  ln "      boost::mpl::fold< ";
  ln "        Vector, ";
  ln "        boost::mpl::int_<0>, ";
  ln "        boost::mpl::lambda< ";
  ln "          boost::mpl::plus<boost::mpl::_1, boost::mpl::_2> ";
  ln "        >::type ";
  ln "      > ";
  ln "    {};";
  ln "";
  ln "  template <class Sum, class Item> ";
  ln "     struct sum_items : ";
  ln "       boost::mpl::plus< ";
  ln "         Sum, ";
  ln "         typename boost::mpl::at_c<Item, 1>::type ";
  ln "       > ";
  ln "   {};";
  ln ""].

(** doc/before_5_2_3.qbk *)
Definition pages_20 : list str := [
  ln "[#before_5_2_3]";
  ln "['Definitions before section 5.2.3.]";
  ln "";
  ln "  #include <boost/metaparse/string.hpp>";
  ln "  #include <boost/metaparse/int_.hpp>";
  ln "";
  ln "  #include <boost/metaparse/build_parser.hpp>";
  ln "";
  ln "  using namespace boost::metaparse;";
  ln "";
  ln "  using exp_parser1 = build_parser<int_>;";
  ln "  #include <boost/metaparse/entire_input.hpp>";
  ln "";
  ln "  using exp_parser2 = build_parser<entire_input<int_>>;";
  ln "  #include <boost/metaparse/token.hpp>";
  ln "";
  ln "  using exp_parser3 = build_parser<entire_input<token<int_>>>;";
  ln "  #include <boost/metaparse/lit_c.hpp>";
  ln "";
  ln "  #include <boost/metaparse/sequence.hpp>";
  ln "";
  ln "  using exp_parser4 = build_parser<sequence<token<int_>, token<lit_c<'+'>>, token<int_>>>;";
  ln "";
  ln "  #include <metashell/formatter.hpp>";
  ln "  ";
  ln "  using int_token = token<int_>;";
  ln "";
  ln "  using plus_token = token<lit_c<'+'>>;";
  ln "";
  ln "  using exp_parser5 = build_parser<sequence<int_token, plus_token, int_token>>;";
  ln "  #include <boost/metaparse/transform.hpp>";
  ln "";
  ln "  #include <boost/mpl/plus.hpp>";
  ln "";
  ln "  #include <boost/mpl/at.hpp>";
  ln "";
  ln "  template <class Vector> ";
  ln "   struct eval_plus : ";
  ln "     boost::mpl::plus< ";
  ln "       typename boost::mpl::at_c<Vector, 0>::type, ";
  ln "       typename boost::mpl::at_c<Vector, 2>::type ";
  ln "     > {};";
  ln "";
  ln "  #include <boost/mpl/quote.hpp>";
  ln "";
  ln "  using exp_parser6 = ";
  ln "   build_parser< ";
  ln "     transform< ";
  ln "       sequence<int_token, plus_token, int_token>, ";
  ln "       boost::mpl::quote1<eval_plus> ";
  ln "     > ";
  ln "   >;";
  ln "  #include <boost/metaparse/any.hpp>";
  ln "";
  ln "  using exp_parser7 = ";
  ln "   build_parser< ";
  ln "     sequence< ";
  ln "       int_token,                                /* The first <number> */ ";
  ln "       repeated<sequence<plus_token, int_token>> /* The ""+ <number>"" elements */ ";
  ln "     > ";
  ln "   >;";
  ln "  using temp_result = exp_parser7::apply<BOOST_METAPARSE_STRING(""1 + 2 + 3 + 4"")>::type;";
  ln "  #include <boost/mpl/fold.hpp>";
  ln "";
  ln "  using vector_of_numbers = ";
  ln "   boost::mpl::vector< ";
  ln "     boost::mpl::int_<2>, ";
  ln "     boost::mpl::int_<5>, ";
  ln "     boost::mpl::int_<6> ";
  ln "   >;";
  ln "";
  ln "  template <class Vector> ";
  ln "   struct sum_vector : ";
  ln "      boost::mpl::fold< ";
  ln "        Vector, ";
  ln "        boost::mpl::int_<0>, ";
  ln "        boost::mpl::lambda< ";
  ln "          boost::mpl::plus<boost::mpl::_1, boost::mpl::_2> ";
  ln "        >::type ";
  ln "      > ";
  ln "    {};";
  ln "";
  ln "  template <class Sum, class Item> ";
  ln "     struct sum_items : ";
  ln "       boost::mpl::plus< ";
  ln "         Sum, ";
  ln "         typename boost::mpl::at_c<Item, 1>::type ";
  ln "       > ";
  ln "   {};";
  ln "  using exp_parser8 = ";
  ln "   build_parser< ";
  ln "     sequence< ";
  ln "       int_token, /* parse the first <number> */ ";
  ln "       transform< ";
  ln "         repeated<sequence<plus_token, int_token>>, /* parse the ""+ <number>"" elements */ ";
  ln "         /* lambda expression summarising the ""+ <number>"" elements using fold */ ";
  ln "         boost::mpl::lambda< ";
  ln "           /* The folding expression we have just created */ ";
  ln "           boost::mpl::fold< ";
  ln "             boost::mpl::_1, /* the argument of the lambda expression, the result */ ";
  ln "                             /* of the repeated<...> parser */ ";
  ln "             boost::mpl::int_<0>, ";
  ln "             boost::mpl::quote2<sum_items> ";
  ln "           > ";
  ln "         >::type ";
  ln "       > ";
  ln "     > ";
  ln "   >;";
  ln "";
  ln "  using exp_parser9 = ";
  ln "   build_parser< ";
  ln "     transform< ";
  ln "       /* What we had so far */ ";
  ln "       sequence< ";
  ln "         int_token, ";
  ln "         transform< ";
  ln "           repeated<sequence<plus_token, int_token>>, ";
  ln "           boost::mpl::lambda< ";
  ln "             boost::mpl::fold< ";
  ln "               boost::mpl::_1, ";
  ln "               boost::mpl::int_<0>, ";
  ln "               boost::mpl::quote2<sum_items> ";
  ln "             > ";
  ln "           >::type ";
  ln "         > ";
  ln "       >, ";
  ln "       boost::mpl::quote1<sum_vector> /* summarise the vector of numbers */ ";
  ln "     > ";
  ln "   >;";
  ln ""].

(** doc/before_5_2_4.qbk *)
Definition pages_21 : list str := [
  ln "[#before_5_2_4]";
  ln "['Definitions before section 5.2.4.]";
  ln "";
  ln "  #include <boost/metaparse/string.hpp>";
  ln "  #include <boost/metaparse/int_.hpp>";
  ln "";
  ln "  #include <boost/metaparse/build_parser.hpp>";
  ln "";
  ln "  using namespace boost::metaparse;";
  ln "";
  ln "  using exp_parser1 = build_parser<int_>;";
  ln "  #include <boost/metaparse/entire_input.hpp>";
  ln "";
  ln "  using exp_parser2 = build_parser<entire_input<int_>>;";
  ln "  #include <boost/metaparse/token.hpp>";
  ln "";
  ln "  using exp_parser3 = build_parser<entire_input<token<int_>>>;";
  ln "  #include <boost/metaparse/lit_c.hpp>";
  ln "";
  ln "  #include <boost/metaparse/sequence.hpp>";
  ln "";
  ln "  using exp_parser4 = build_parser<sequence<token<int_>, token<lit_c<'+'>>, token<int_>>>;";
  ln "";
  ln "  #include <metashell/formatter.hpp>";
  ln "  ";
  ln "  using int_token = token<int_>;";
  ln "";
  ln "  using plus_token = token<lit_c<'+'>>;";
  ln "";
  ln "  using exp_parser5 = build_parser<sequence<int_token, plus_token, int_token>>;";
  ln "  #include <boost/metaparse/transform.hpp>";
  ln "";
  ln "  #include <boost/mpl/plus.hpp>";
  ln "";
  ln "  #include <boost/mpl/at.hpp>";
  ln "";
  ln "  template <class Vector> ";
  ln "   struct eval_plus : ";
  ln "     boost::mpl::plus< ";
  ln "       typename boost::mpl::at_c<Vector, 0>::type, ";
  ln "       typename boost::mpl::at_c<Vector, 2>::type ";
  ln "     > {};";
  ln "";
  ln "  #include <boost/mpl/quote.hpp>";
  ln "";
  ln "  using exp_parser6 = ";
  ln "   build_parser< ";
  ln "     transform< ";
  ln "       sequence<int_token, plus_token, int_token>, ";
  ln "       boost::mpl::quote1<eval_plus> ";
  ln "     > ";
  ln "   >;";
  ln "  #include <boost/metaparse/any.hpp>";
  ln "";
  ln "  using exp_parser7 = ";
  ln "   build_parser< ";
  ln "     sequence< ";
  ln "       int_token,                                /* The first <number> */ ";
  ln "       repeated<sequence<plus_token, int_token>> /* The ""+ <number>"" elements */ ";
  ln "     > ";
  ln "   >;";
  ln "  using temp_result = exp_parser7::apply<BOOST_METAPARSE_STRING(""1 + 2 + 3 + 4"")>::type;";
  ln "  #include <boost/mpl/fold.hpp>";
  ln "";
  ln "  using vector_of_numbers = ";
  ln "   boost::mpl::vector< ";
  ln "     boost::mpl::int_<2>, ";
  ln "     boost::mpl::int_<5>, ";
  ln "     boost::mpl::int_<6> ";
  ln "   >;";
  ln "";
  ln "  template <class Vector> ";
  ln "   struct sum_vector : ";
  ln "      boost::mpl::fold< ";
  ln "        Vector, ";
  ln "        boost::mpl::int_<0>, ";
  ln "        boost::mpl::lambda< ";
  ln "          boost::mpl::plus<boost::mpl::_1, boost::mpl::_2> ";
  ln "        >::type ";
  ln "      > ";
  ln "    {};";
  ln "";
  ln "  template <class Sum, class Item> ";
  ln "     struct sum_items : ";
  ln "       boost::mpl::plus< ";
  ln "         Sum, ";
  ln "         typename boost::mpl::at_c<Item, 1>::type ";
  ln "       > ";
  ln "   {};";
  ln "  using exp_parser8 = ";
  ln "   build_parser< ";
  ln "     sequence< ";
  ln "       int_token, /* parse the first <number> */ ";
  ln "       transform< ";
  ln "         repeated<sequence<plus_token, int_token>>, /* parse the ""+ <number>"" elements */ ";
  ln "         /* lambda expression summarising the ""+ <number>"" elements using fold */ ";
  ln "         boost::mpl::lambda< ";
  ln "           /* The folding expression we have just created */ ";
  ln "           boost::mpl::fold< ";
  ln "             boost::mpl::_1, /* the argument of the lambda expression, the result */ ";
  ln "                             /* of the repeated<...> parser */ ";
  ln "             boost::mpl::int_<0>, ";
  ln "             boost::mpl::quote2<sum_items> ";
  ln "           > ";
  ln "         >::type ";
  ln "       > ";
  ln "     > ";
  ln "   >;";
  ln "";
  ln "  using exp_parser9 = ";
  ln "   build_parser< ";
  ln "     transform< ";
  ln "       /* What we had so far */ ";
  ln "       sequence< ";
  ln "         int_token, ";
  ln "         transform< ";
  ln "           repeated<sequence<plus_token, int_token>>, ";
  ln "           boost::mpl::lambda< ";
  ln "             boost::mpl::fold< ";
  ln "               boost::mpl::_1, ";
  ln "               boost::mpl::int_<0>, ";
  ln "               boost::mpl::quote2<sum_items> ";
  ln "             > ";
  ln "           >::type ";
  ln "         > ";
  ln "       >, ";
  ln "       boost::mpl::quote1<sum_vector> /* summarise the vector of numbers */ ";
  ln "     > ";
  ln "   >;";
  ln "  #include <boost/metaparse/foldl.hpp>";
  ln "";
  ln "  using exp_parser10 = ";
  ln "   build_parser< ";
  ln "     transform< ";
  ln "       sequence< ";
  ln "         int_token, ";
  ln "         foldl< ";
  ln "           sequence<plus_token, int_token>, ";
  ln "           boost::mpl::int_<0>, ";
  ln "           boost::mpl::quote2<sum_items> ";
  ln "         > ";
  ln "       >, ";
  ln "       boost::mpl::quote1<sum_vector>> ";
  ln "   >;";
  ln ""].

(** doc/before_6.qbk *)
Definition pages_22 : list str := [
  ln "[#before_6]";
  ln "['Definitions before section 6.]";
  ln "";
  ln "  #include <boost/metaparse/string.hpp>";
  ln "  #include <boost/metaparse/int_.hpp>";
  ln "";
  ln "  #include <boost/metaparse/build_parser.hpp>";
  ln "";
  ln "  using namespace boost::metaparse;";
  ln "";
  ln "  using exp_parser1 = build_parser<int_>;";
  ln "  #include <boost/metaparse/entire_input.hpp>";
  ln "";
  ln "  using exp_parser2 = build_parser<entire_input<int_>>;";
  ln "  #include <boost/metaparse/token.hpp>";
  ln "";
  ln "  using exp_parser3 = build_parser<entire_input<token<int_>>>;";
  ln "  #include <boost/metaparse/lit_c.hpp>";
  ln "";
  ln "  #include <boost/metaparse/sequence.hpp>";
  ln "";
  ln "  using exp_parser4 = build_parser<sequence<token<int_>, token<lit_c<'+'>>, token<int_>>>;";
  ln "";
  ln "  #include <metashell/formatter.hpp>";
  ln "  ";
  ln "  using int_token = token<int_>;";
  ln "";
  ln "  using plus_token = token<lit_c<'+'>>;";
  ln "";
  ln "  using exp_parser5 = build_parser<sequence<int_token, plus_token, int_token>>;";
  ln "  #include <boost/metaparse/transform.hpp>";
  ln "";
  ln "  #include <boost/mpl/plus.hpp>";
  ln "";
  ln "  #include <boost/mpl/at.hpp>";
  ln "";
  ln "  template <class Vector> ";
  ln "   struct eval_plus : ";
  ln "     boost::mpl::plus< ";
  ln "       typename boost::mpl::at_c<Vector, 0>::type, ";
  ln "       typename boost::mpl::at_c<Vector, 2>::type ";
  ln "     > {};";
  ln "";
  ln "  #include <boost/mpl/quote.hpp>";
  ln "";
  ln "  using exp_parser6 = ";
  ln "   build_parser< ";
  ln "     transform< ";
  ln "       sequence<int_token, plus_token, int_token>, ";
  ln "       boost::mpl::quote1<eval_plus> ";
  ln "     > ";
  ln "   >;";
  ln "  #include <boost/metaparse/any.hpp>";
  ln "";
  ln "  using exp_parser7 = ";
  ln "   build_parser< ";
  ln "     sequence< ";
  ln "       int_token,                                /* The first <number> */ ";
  ln "       repeated<sequence<plus_token, int_token>> /* The ""+ <number>"" elements */ ";
  ln "     > ";
  ln "   >;";
  ln "  using temp_result = exp_parser7::apply<BOOST_METAPARSE_STRING(""1 + 2 + 3 + 4"")>::type;";
  ln "  #include <boost/mpl/fold.hpp>";
  ln "";
  ln "  using vector_of_numbers = ";
  ln "   boost::mpl::vector< ";
  ln "     boost::mpl::int_<2>, ";
  ln "     boost::mpl::int_<5>, ";
  ln "     boost::mpl::int_<6> ";
  ln "   >;";
  ln "";
  ln "  template <class Vector> ";
  ln "   struct sum_vector : ";
  ln "      boost::mpl::fold< ";
  ln "        Vector, ";
  ln "        boost::mpl::int_<0>, ";
  ln "        boost::mpl::lambda< ";
  ln "          boost::mpl::plus<boost::mpl::_1, boost::mpl::_2> ";
  ln "        >::type ";
  ln "      > ";
  ln "    {};";
  ln "";
  ln "  template <class Sum, class Item> ";
  ln "     struct sum_items : ";
  ln "       boost::mpl::plus< ";
  ln "         Sum, ";
  ln "         typename boost::mpl::at_c<Item, 1>::type ";
  ln "       > ";
  ln "   {};";
  ln "  using exp_parser8 = ";
  ln "   build_parser< ";
  ln "     sequence< ";
  ln "       int_token, /* parse the first <number> */ ";
  ln "       transform< ";
  ln "         repeated<sequence<plus_token, int_token>>, /* parse the ""+ <number>"" elements */ ";
  ln "         /* lambda expression summarising the ""+ <number>"" elements using fold */ ";
  ln "         boost::mpl::lambda< ";
  ln "           /* The folding expression we have just created */ ";
  ln "           boost::mpl::fold< ";
  ln "             boost::mpl::_1, /* the argument of the lambda expression, the result */ ";
  ln "                             /* of the repeated<...> parser */ ";
  ln "             boost::mpl::int_<0>, ";
  ln "             boost::mpl::quote2<sum_items> ";
  ln "           > ";
  ln "         >::type ";
  ln "       > ";
  ln "     > ";
  ln "   >;";
  ln "";
  ln "  using exp_parser9 = ";
  ln "   build_parser< ";
  ln "     transform< ";
  ln "       /* What we had so far */ ";
  ln "       sequence< ";
  ln "         int_token, ";
  ln "         transform< ";
  ln "           repeated<sequence<plus_token, int_token>>, ";
  ln "           boost::mpl::lambda< ";
  ln "             boost::mpl::fold< ";
  ln "               boost::mpl::_1, ";
  ln "               boost::mpl::int_<0>, ";
  ln "               boost::mpl::quote2<sum_items> ";
  ln "             > ";
  ln "           >::type ";
  ln "         > ";
  ln "       >, ";
  ln "       boost::mpl::quote1<sum_vector> /* summarise the vector of numbers */ ";
  ln "     > ";
  ln "   >;";
  ln "  #include <boost/metaparse/foldl.hpp>";
  ln "";
  ln "  using exp_parser10 = ";
  ln "   build_parser< ";
  ln "     transform< ";
  ln "       sequence< ";
  ln "         int_token, ";
  ln "         foldl< ";
  ln "           sequence<plus_token, int_token>, ";
  ln "           boost::mpl::int_<0>, ";
  ln "           boost::mpl::quote2<sum_items> ";
  ln "         > ";
  ln "       >, ";
  ln "       boost::mpl::quote1<sum_vector>> ";
  ln "   >;";
  ln "  #include <boost/metaparse/foldl_start_with_parser.hpp>";
  ln "";
  ln "  using exp_parser11 = ";
  ln "   build_parser< ";
  ln "     foldl_start_with_parser< ";
  ln "       sequence<plus_token, int_token>, /* apply this parser repeatedly */ ";
  ln "       int_token, /* use this parser to get the initial value */ ";
  ln "       boost::mpl::quote2<sum_items> /* use this function to add a new value to the summary */ ";
  ln "     > ";
  ln "   >;";
  ln ""].

(** doc/before_6_1.qbk *)
Definition pages_23 : list str := [
  ln "[#before_6_1]";
  ln "['Definitions before section 6.1.]";
  ln "";
  ln "  #include <boost/metaparse/string.hpp>";
  ln "  #include <boost/metaparse/int_.hpp>";
  ln "";
  ln "  #include <boost/metaparse/build_parser.hpp>";
  ln "";
  ln "  using namespace boost::metaparse;";
  ln "";
  ln "  using exp_parser1 = build_parser<int_>;";
  ln "  #include <boost/metaparse/entire_input.hpp>";
  ln "";
  ln "  using exp_parser2 = build_parser<entire_input<int_>>;";
  ln "  #include <boost/metaparse/token.hpp>";
  ln "";
  ln "  using exp_parser3 = build_parser<entire_input<token<int_>>>;";
  ln "  #include <boost/metaparse/lit_c.hpp>";
  ln "";
  ln "  #include <boost/metaparse/sequence.hpp>";
  ln "";
  ln "  using exp_parser4 = build_parser<sequence<token<int_>, token<lit_c<'+'>>, token<int_>>>;";
  ln "";
  ln "  #include <metashell/formatter.hpp>";
  ln "  ";
  ln "  using int_token = token<int_>;";
  ln "";
  ln "  using plus_token = token<lit_c<'+'>>;";
  ln "";
  ln "  using exp_parser5 = build_parser<sequence<int_token, plus_token, int_token>>;";
  ln "  #include <boost/metaparse/transform.hpp>";
  ln "";
  ln "  #include <boost/mpl/plus.hpp>";
  ln "";
  ln "  #include <boost/mpl/at.hpp>";
  ln "";
  ln "  template <class Vector> ";
  ln "   struct eval_plus : ";
  ln "     boost::mpl::plus< ";
  ln "       typename boost::mpl::at_c<Vector, 0>::type, ";
  ln "       typename boost::mpl::at_c<Vector, 2>::type ";
  ln "     > {};";
  ln "";
  ln "  #include <boost/mpl/quote.hpp>";
  ln "";
  ln "  using exp_parser6 = ";
  ln "   build_parser< ";
  ln "     transform< ";
  ln "       sequence<int_token, plus_token, int_token>, ";
  ln "       boost::mpl::quote1<eval_plus> ";
  ln "     > ";
  ln "   >;";
  ln "  #include <boost/metaparse/any.hpp>";
  ln "";
  ln "  using exp_parser7 = ";
  ln "   build_parser< ";
  ln "     sequence< ";
  ln "       int_token,                                /* The first <number> */ ";
  ln "       repeated<sequence<plus_token, int_token>> /* The ""+ <number>"" elements */ ";
  ln "     > ";
  ln "   >;";
  ln "  using temp_result = exp_parser7::apply<BOOST_METAPARSE_STRING(""1 + 2 + 3 + 4"")>::type;";
  ln "  #include <boost/mpl/fold.hpp>";
  ln "";
  ln "  using vector_of_numbers = ";
  ln "   boost::mpl::vector< ";
  ln "     boost::mpl::int_<2>, ";
  ln "     boost::mpl::int_<5>, ";
  ln "     boost::mpl::int_<6> ";
  ln "   >;";
  ln "";
  ln "  template <class Vector> ";
  ln "   struct sum_vector : ";
  ln "      boost::mpl::fold< ";
  ln "        Vector, ";
  ln "        boost::mpl::int_<0>, ";
  ln "        boost::mpl::lambda< ";
  ln "          boost::mpl::plus<boost::mpl::_1, boost::mpl::_2> ";
  ln "        >::type ";
  ln "      > ";
  ln "    {};";
  ln "";
  ln "  template <class Sum, class Item> ";
  ln "     struct sum_items : ";
  ln "       boost::mpl::plus< ";
  ln "         Sum, ";
  ln "         typename boost::mpl::at_c<Item, 1>::type ";
  ln "       > ";
  ln "   {};";
  ln "  using exp_parser8 = ";
  ln "   build_parser< ";
  ln "     sequence< ";
  ln "       int_token, /* parse the first <number> */ ";
  ln "       transform< ";
  ln "         repeated<sequence<plus_token, int_token>>, /* parse the ""+ <number>"" elements */ ";
  ln "         /* lambda expression summarising the ""+ <number>"" elements using fold */ ";
  ln "         boost::mpl::lambda< ";
  ln "           /* The folding expression we have just created */ ";
  ln "           boost::mpl::fold< ";
  ln "             boost::mpl::_1, /* the argument of the lambda expression, the result */ ";
  ln "                             /* of the repeated<...> parser */ ";
  ln "             boost::mpl::int_<0>, ";
  ln "             boost::mpl::quote2<sum_items> ";
  ln "           > ";
  ln "         >::type ";
  ln "       > ";
  ln "     > ";
  ln "   >;";
  ln "";
  ln "  using exp_parser9 = ";
  ln "   build_parser< ";
  ln "     transform< ";
  ln "       /* What we had so far */ ";
  ln "       sequence< ";
  ln "         int_token, ";
  ln "         transform< ";
  ln "           repeated<sequence<plus_token, int_token>>, ";
  ln "           boost::mpl::lambda< ";
  ln "             boost::mpl::fold< ";
  ln "               boost::mpl::_1, ";
  ln "               boost::mpl::int_<0>, ";
  ln "               boost::mpl::quote2<sum_items> ";
  ln "             > ";
  ln "           >::type ";
  ln "         > ";
  ln "       >, ";
  ln "       boost::mpl::quote1<sum_vector> /* summarise the vector of numbers */ ";
  ln "     > ";
  ln "   >;";
  ln "  #include <boost/metaparse/foldl.hpp>";
  ln "";
  ln "  using exp_parser10 = ";
  ln "   build_parser< ";
  ln "     transform< ";
  ln "       sequence< ";
  ln "         int_token, ";
  ln "         foldl< ";
  ln "           sequence<plus_token, int_token>, ";
  ln "           boost::mpl::int_<0>, ";
  ln "           boost::mpl::quote2<sum_items> ";
  ln "         > ";
  ln "       >, ";
  ln "       boost::mpl::quote1<sum_vector>> ";
  ln "   >;";
  ln "  #include <boost/metaparse/foldl_start_with_parser.hpp>";
  ln "";
  ln "  using exp_parser11 = ";
  ln "   build_parser< ";
  ln "     foldl_start_with_parser< ";
  ln "       sequence<plus_token, int_token>, /* apply this parser repeatedly */ ";
  ln "       int_token, /* use this parser to get the initial value */ ";
  ln "       boost::mpl::quote2<sum_items> /* use this function to add a new value to the summary */ ";
  ln "     > ";
  ln "   >;";
  ln ""].

(** doc/before_6_2.qbk *)
Definition pages_24 : list str := [
  ln "[#before_6_2]";
  ln "['Definitions before section 6.2.]";
  ln "";
  ln "  #include <boost/metaparse/string.hpp>";
  ln "  #include <boost/metaparse/int_.hpp>";
  ln "";
  ln "  #include <boost/metaparse/build_parser.hpp>";
  ln "";
  ln "  using namespace boost::metaparse;";
  ln "";
  ln "  using exp_parser1 = build_parser<int_>;";
  ln "  #include <boost/metaparse/entire_input.hpp>";
  ln "";
  ln "  using exp_parser2 = build_parser<entire_input<int_>>;";
  ln "  #include <boost/metaparse/token.hpp>";
  ln "";
  ln "  using exp_parser3 = build_parser<entire_input<token<int_>>>;";
  ln "  #include <boost/metaparse/lit_c.hpp>";
  ln "";
  ln "  #include <boost/metaparse/sequence.hpp>";
  ln "";
  ln "  using exp_parser4 = build_parser<sequence<token<int_>, token<lit_c<'+'>>, token<int_>>>;";
  ln "";
  ln "  #include <metashell/formatter.hpp>";
  ln "  ";
  ln "  using int_token = token<int_>;";
  ln "";
  ln "  using plus_token = token<lit_c<'+'>>;";
  ln "";
  ln "  using exp_parser5 = build_parser<sequence<int_token, plus_token, int_token>>;";
  ln "  #include <boost/metaparse/transform.hpp>";
  ln "";
  ln "  #include <boost/mpl/plus.hpp>";
  ln "";
  ln "  #include <boost/mpl/at.hpp>";
  ln "";
  ln "  template <class Vector> ";
  ln "   struct eval_plus : ";
  ln "     boost::mpl::plus< ";
  ln "       typename boost::mpl::at_c<Vector, 0>::type, ";
  ln "       typename boost::mpl::at_c<Vector, 2>::type ";
  ln "     > {};";
  ln "";
  ln "  #include <boost/mpl/quote.hpp>";
  ln "";
  ln "  using exp_parser6 = ";
  ln "   build_parser< ";
  ln "     transform< ";
  ln "       sequence<int_token, plus_token, int_token>, ";
  ln "       boost::mpl::quote1<eval_plus> ";
  ln "     > ";
  ln "   >;";
  ln "  #include <boost/metaparse/any.hpp>";
  ln "";
  ln "  using exp_parser7 = ";
  ln "   build_parser< ";
  ln "     sequence< ";
  ln "       int_token,                                /* The first <number> */ ";
  ln "       repeated<sequence<plus_token, int_token>> /* The ""+ <number>"" elements */ ";
  ln "     > ";
  ln "   >;";
  ln "  using temp_result = exp_parser7::apply<BOOST_METAPARSE_STRING(""1 + 2 + 3 + 4"")>::type;";
  ln "  #include <boost/mpl/fold.hpp>";
  ln "";
  ln "  using vector_of_numbers = ";
  ln "   boost::mpl::vector< ";
  ln "     boost::mpl::int_<2>, ";
  ln "     boost::mpl::int_<5>, ";
  ln "     boost::mpl::int_<6> ";
  ln "   >;";
  ln "";
  ln "  template <class Vector> ";
  ln "   struct sum_vector : ";
  ln "      boost::mpl::fold< ";
  ln "        Vector, ";
  ln "        boost::mpl::int_<0>, ";
  ln "        boost::mpl::lambda< ";
  ln "          boost::mpl::plus<boost::mpl::_1, boost::mpl::_2> ";
  ln "        >::type ";
  ln "      > ";
  ln "    {};";
  ln "";
  ln "  template <class Sum, class Item> ";
  ln "     struct sum_items : ";
  ln "       boost::mpl::plus< ";
  ln "         Sum, ";
  ln "         typename boost::mpl::at_c<Item, 1>::type ";
  ln "       > ";
  ln "   {};";
  ln "  using exp_parser8 = ";
  ln "   build_parser< ";
  ln "     sequence< ";
  ln "       int_token, /* parse the first <number> */ ";
  ln "       transform< ";
  ln "         repeated<sequence<plus_token, int_token>>, /* parse the ""+ <number>"" elements */ ";
  ln "         /* lambda expression summarising the ""+ <number>"" elements using fold */ ";
  ln "         boost::mpl::lambda< ";
  ln "           /* The folding expression we have just created */ ";
  ln "           boost::mpl::fold< ";
  ln "             boost::mpl::_1, /* the argument of the lambda expression, the result */ ";
  ln "                             /* of the repeated<...> parser */ ";
  ln "             boost::mpl::int_<0>, ";
  ln "             boost::mpl::quote2<sum_items> ";
  ln "           > ";
  ln "         >::type ";
  ln "       > ";
  ln "     > ";
  ln "   >;";
  ln "";
  ln "  using exp_parser9 = ";
  ln "   build_parser< ";
  ln "     transform< ";
  ln "       /* What we had so far */ ";
  ln "       sequence< ";
  ln "         int_token, ";
  ln "         transform< ";
  ln "           repeated<sequence<plus_token, int_token>>, ";
  ln "           boost::mpl::lambda< ";
  ln "             boost::mpl::fold< ";
  ln "               boost::mpl::_1, ";
  ln "               boost::mpl::int_<0>, ";
  ln "               boost::mpl::quote2<sum_items> ";
  ln "             > ";
  ln "           >::type ";
  ln "         > ";
  ln "       >, ";
  ln "       boost::mpl::quote1<sum_vector> /* summarise the vector of numbers */ ";
  ln "     > ";
  ln "   >;";
  ln "  #include <boost/metaparse/foldl.hpp>";
  ln "";
  ln "  using exp_parser10 = ";
  ln "   build_parser< ";
  ln "     transform< ";
  ln "       sequence< ";
  ln "         int_token, ";
  ln "         foldl< ";
  ln "           sequence<plus_token, int_token>, ";
  ln "           boost::mpl::int_<0>, ";
  ln "           boost::mpl::quote2<sum_items> ";
  ln "         > ";
  ln "       >, ";
  ln "       boost::mpl::quote1<sum_vector>> ";
  ln "   >;";
  ln "  #include <boost/metaparse/foldl_start_with_parser.hpp>";
  ln "";
  ln "  using exp_parser11 = ";
  ln "   build_parser< ";
  ln "     foldl_start_with_parser< ";
  ln "       sequence<plus_token, int_token>, /* apply this parser repeatedly */ ";
  ln "       int_token, /* use this parser to get the initial value */ ";
  ln "       boost::mpl::quote2<sum_items> /* use this function to add a new value to the summary */ ";
  ln "     > ";
  ln "   >;";
  ln "  using minus_token = token<lit_c<'-'>>;";
  ln "";
  ln "  #include <boost/metaparse/one_of.hpp>";
  ln "";
  ln "  using exp_parser12 = ";
  ln "   build_parser< ";
  ln "     foldl_start_with_parser< ";
  ln "       sequence<one_of<plus_token, minus_token>, int_token>, ";
  ln "       int_token, ";
  ln "       boost::mpl::quote2<sum_items> ";
  ln "     > ";
  ln "   >;";
  ln ""].

(** doc/before_7.qbk *)
Definition pages_25 : list str := [
  ln "[#before_7]";
  ln "['Definitions before section 7.]";
  ln "";
  ln "  #include <boost/metaparse/string.hpp>";
  ln "  #include <boost/metaparse/int_.hpp>";
  ln "";
  ln "  #include <boost/metaparse/build_parser.hpp>";
  ln "";
  ln "  using namespace boost::metaparse;";
  ln "";
  ln "  using exp_parser1 = build_parser<int_>;";
  ln "  #include <boost/metaparse/entire_input.hpp>";
  ln "";
  ln "  using exp_parser2 = build_parser<entire_input<int_>>;";
  ln "  #include <boost/metaparse/token.hpp>";
  ln "";
  ln "  using exp_parser3 = build_parser<entire_input<token<int_>>>;";
  ln "  #include <boost/metaparse/lit_c.hpp>";
  ln "";
  ln "  #include <boost/metaparse/sequence.hpp>";
  ln "";
  ln "  using exp_parser4 = build_parser<sequence<token<int_>, token<lit_c<'+'>>, token<int_>>>;";
  ln "";
  ln "  #include <metashell/formatter.hpp>";
  ln "  ";
  ln "  using int_token = token<int_>;";
  ln "";
  ln "  using plus_token = token<lit_c<'+'>>;";
  ln "";
  ln "  using exp_parser5 = build_parser<sequence<int_token, plus_token, int_token>>;";
  ln "  #include <boost/metaparse/transform.hpp>";
  ln "";
  ln "  #include <boost/mpl/plus.hpp>";
  ln "";
  ln "  #include <boost/mpl/at.hpp>";
  ln "";
  ln "  template <class Vector> ";
  ln "   struct eval_plus : ";
  ln "     boost::mpl::plus< ";
  ln "       typename boost::mpl::at_c<Vector, 0>::type, ";
  ln "       typename boost::mpl::at_c<Vector, 2>::type ";
  ln "     > {};";
  ln "";
  ln "  #include <boost/mpl/quote.hpp>";
  ln "";
  ln "  using exp_parser6 = ";
  ln "   build_parser< ";
  ln "     transform< ";
  ln "       sequence<int_token, plus_token, int_token>, ";
  ln "       boost::mpl::quote1<eval_plus> ";
  ln "     > ";
  ln "   >;";
  ln "  #include <boost/metaparse/any.hpp>";
  ln "";
  ln "  using exp_parser7 = ";
  ln "   build_parser< ";
  ln "     sequence< ";
  ln "       int_token,                                /* The first <number> */ ";
  ln "       repeated<sequence<plus_token, int_token>> /* The ""+ <number>"" elements */ ";
  ln "     > ";
  ln "   >;";
  ln "  using temp_result = exp_parser7::apply<BOOST_METAPARSE_STRING(""1 + 2 + 3 + 4"")>::type;";
  ln "  #include <boost/mpl/fold.hpp>";
  ln "";
  ln "  using vector_of_numbers = ";
  ln "   boost::mpl::vector< ";
  ln "     boost::mpl::int_<2>, ";
  ln "     boost::mpl::int_<5>, ";
  ln "     boost::mpl::int_<6> ";
  ln "   >;";
  ln "";
  ln "  template <class Vector> ";
  ln "   struct sum_vector : ";
  ln "      boost::mpl::fold< ";
  ln "        Vector, ";
  ln "        boost::mpl::int_<0>, ";
  ln "        boost::mpl::lambda< ";
  ln "          boost::mpl::plus<boost::mpl::_1, boost::mpl::_2> ";
  ln "        >::type ";
  ln "      > ";
  ln "    {};";
  ln "";
  ln "  template <class Sum, class Item> ";
  ln "     struct sum_items : ";
  ln "       boost::mpl::plus< ";
  ln "         Sum, ";
  ln "         typename boost::mpl::at_c<Item, 1>::type ";
  ln "       > ";
  ln "   {};";
  ln "  using exp_parser8 = ";
  ln "   build_parser< ";
  ln "     sequence< ";
  ln "       int_token, /* parse the first <number> */ ";
  ln "       transform< ";
  ln "         repeated<sequence<plus_token, int_token>>, /* parse the ""+ <number>"" elements */ ";
  ln "         /* lambda expression summarising the ""+ <number>"" elements using fold */ ";
  ln "         boost::mpl::lambda< ";
  ln "           /* The folding expression we have just created */ ";
  ln "           boost::mpl::fold< ";
  ln "             boost::mpl::_1, /* the argument of the lambda expression, the result */ ";
  ln "                             /* of the repeated<...> parser */ ";
  ln "             boost::mpl::int_<0>, ";
  ln "             boost::mpl::quote2<sum_items> ";
  ln "           > ";
  ln "         >::type ";
  ln "       > ";
  ln "     > ";
  ln "   >;";
  ln "";
  ln "  using exp_parser9 = ";
  ln "   build_parser< ";
  ln "     transform< ";
  ln "       /* What we had so far */ ";
  ln "       sequence< ";
  ln "         int_token, ";
  ln "         transform< ";
  ln "           repeated<sequence<plus_token, int_token>>, ";
  ln "           boost::mpl::lambda< ";
  ln "             boost::mpl::fold< ";
  ln "               boost::mpl::_1, ";
  ln "               boost::mpl::int_<0>, ";
  ln "               boost::mpl::quote2<sum_items> ";
  ln "             > ";
  ln "           >::type ";
  ln "         > ";
  ln "       >, ";
  ln "       boost::mpl::quote1<sum_vector> /* summarise the vector of numbers */ ";
  ln "     > ";
  ln "   >;";
  ln "  #include <boost/metaparse/foldl.hpp>";
  ln "";
  ln "  using exp_parser10 = ";
  ln "   build_parser< ";
  ln "     transform< ";
  ln "       sequence< ";
  ln "         int_token, ";
  ln "         foldl< ";
  ln "           sequence<plus_token, int_token>, ";
  ln "           boost::mpl::int_<0>, ";
  ln "           boost::mpl::quote2<sum_items> ";
  ln "         > ";
  ln "       >, ";
  ln "       boost::mpl::quote1<sum_vector>> ";
  ln "   >;";
  ln "  #include <boost/metaparse/foldl_start_with_parser.hpp>";
  ln "";
  ln "  using exp_parser11 = ";
  ln "   build_parser< ";
  ln "     foldl_start_with_parser< ";
  ln "       sequence<plus_token, int_token>, /* apply this parser repeatedly */ ";
  ln "       int_token, /* use this parser to get the initial value */ ";
  ln "       boost::mpl::quote2<sum_items> /* use this function to add a new value to the summary */ ";
  ln "     > ";
  ln "   >;";
  ln "  using minus_token = token<lit_c<'-'>>;";
  ln "";
  ln "  #include <boost/metaparse/one_of.hpp>";
  ln "";
  ln "  using exp_parser12 = ";
  ln "   build_parser< ";
  ln "     foldl_start_with_parser< ";
  ln "       sequence<one_of<plus_token, minus_token>, int_token>, ";
  ln "       int_token, ";
  ln "       boost::mpl::quote2<sum_items> ";
  ln "     > ";
  ln "   >;";
  ln "  #include <boost/mpl/minus.hpp>";
  ln "";
  ln "  template <class L, char Op, class R> struct eval_binary_op;";
  ln "";
  ln "  template <class L, class R> struct eval_binary_op<L, '+', R> : boost::mpl::plus<L, R>::type {};";
  ln "";
  ln "  template <class L, class R> struct eval_binary_op<L, '-', R> : boost::mpl::minus<L, R>::type {};";
  ln "";
  ln "  template <class S, class Item> ";
  ln "   struct binary_op : ";
  ln "     eval_binary_op< ";
  ln "       S, ";
  ln "       boost::mpl::at_c<Item, 0>::type::value, ";
  ln "       typename boost::mpl::at_c<Item, 1>::type ";
  ln "     > ";
  ln "     {};";
  ln "";
  ln "  using exp_parser13 = ";
  ln "   build_parser< ";
  ln "     foldl_start_with_parser< ";
  ln "       sequence<one_of<plus_token, minus_token>, int_token>, ";
  ln "       int_token, ";
  ln "       boost::mpl::quote2<binary_op> ";
  ln "     > ";
  ln "   >;";
  ln ""].

(** doc/before_7_1.qbk *)
Definition pages_26 : list str := [
  ln "[#before_7_1]";
  ln "['Definitions before section 7.1.]";
  ln "";
  ln "  #include <boost/metaparse/string.hpp>";
  ln "  #include <boost/metaparse/int_.hpp>";
  ln "";
  ln "  #include <boost/metaparse/build_parser.hpp>";
  ln "";
  ln "  using namespace boost::metaparse;";
  ln "";
  ln "  using exp_parser1 = build_parser<int_>;";
  ln "  #include <boost/metaparse/entire_input.hpp>";
  ln "";
  ln "  using exp_parser2 = build_parser<entire_input<int_>>;";
  ln "  #include <boost/metaparse/token.hpp>";
  ln "";
  ln "  using exp_parser3 = build_parser<entire_input<token<int_>>>;";
  ln "  #include <boost/metaparse/lit_c.hpp>";
  ln "";
  ln "  #include <boost/metaparse/sequence.hpp>";
  ln "";
  ln "  using exp_parser4 = build_parser<sequence<token<int_>, token<lit_c<'+'>>, token<int_>>>;";
  ln "";
  ln "  #include <metashell/formatter.hpp>";
  ln "  ";
  ln "  using int_token = token<int_>;";
  ln "";
  ln "  using plus_token = token<lit_c<'+'>>;";
  ln "";
  ln "  using exp_parser5 = build_parser<sequence<int_token, plus_token, int_token>>;";
  ln "  #include <boost/metaparse/transform.hpp>";
  ln "";
  ln "  #include <boost/mpl/plus.hpp>";
  ln "";
  ln "  #include <boost/mpl/at.hpp>";
  ln "";
  ln "  template <class Vector> ";
  ln "   struct eval_plus : ";
  ln "     boost::mpl::plus< ";
  ln "       typename boost::mpl::at_c<Vector, 0>::type, ";
  ln "       typename boost::mpl::at_c<Vector, 2>::type ";
  ln "     > {};";
  ln "";
  ln "  #include <boost/mpl/quote.hpp>";
  ln "";
  ln "  using exp_parser6 = ";
  ln "   build_parser< ";
  ln "     transform< ";
  ln "       sequence<int_token, plus_token, int_token>, ";
  ln "       boost::mpl::quote1<eval_plus> ";
  ln "     > ";
  ln "   >;";
  ln "  #include <boost/metaparse/any.hpp>";
  ln "";
  ln "  using exp_parser7 = ";
  ln "   build_parser< ";
  ln "     sequence< ";
  ln "       int_token,                                /* The first <number> */ ";
  ln "       repeated<sequence<plus_token, int_token>> /* The ""+ <number>"" elements */ ";
  ln "     > ";
  ln "   >;";
  ln "  using temp_result = exp_parser7::apply<BOOST_METAPARSE_STRING(""1 + 2 + 3 + 4"")>::type;";
  ln "  #include <boost/mpl/fold.hpp>";
  ln "";
  ln "  using vector_of_numbers = ";
  ln "   boost::mpl::vector< ";
  ln "     boost::mpl::int_<2>, ";
  ln "     boost::mpl::int_<5>, ";
  ln "     boost::mpl::int_<6> ";
  ln "   >;";
  ln "";
  ln "  template <class Vector> ";
  ln "   struct sum_vector : ";
  ln "      boost::mpl::fold< ";
  ln "        Vector, ";
  ln "        boost::mpl::int_<0>, ";
  ln "        boost::mpl::lambda< ";
  ln "          boost::mpl::plus<boost::mpl::_1, boost::mpl::_2> ";
  ln "        >::type ";
  ln "      > ";
  ln "    {};";
  ln "";
  ln "  template <class Sum, class Item> ";
  ln "     struct sum_items : ";
  ln "       boost::mpl::plus< ";
  ln "         Sum, ";
  ln "         typename boost::mpl::at_c<Item, 1>::type ";
  ln "       > ";
  ln "   {};";
  ln "  using exp_parser8 = ";
  ln "   build_parser< ";
  ln "     sequence< ";
  ln "       int_token, /* parse the first <number> */ ";
  ln "       transform< ";
  ln "         repeated<sequence<plus_token, int_token>>, /* parse the ""+ <number>"" elements */ ";
  ln "         /* lambda expression summarising the ""+ <number>"" elements using fold */ ";
  ln "         boost::mpl::lambda< ";
  ln "           /* The folding expression we have just created */ ";
  ln "           boost::mpl::fold< ";
  ln "             boost::mpl::_1, /* the argument of the lambda expression, the result */ ";
  ln "                             /* of the repeated<...> parser */ ";
  ln "             boost::mpl::int_<0>, ";
  ln "             boost::mpl::quote2<sum_items> ";
  ln "           > ";
  ln "         >::type ";
  ln "       > ";
  ln "     > ";
  ln "   >;";
  ln "";
  ln "  using exp_parser9 = ";
  ln "   build_parser< ";
  ln "     transform< ";
  ln "       /* What we had so far */ ";
  ln "       sequence< ";
  ln "         int_token, ";
  ln "         transform< ";
  ln "           repeated<sequence<plus_token, int_token>>, ";
  ln "           boost::mpl::lambda< ";
  ln "             boost::mpl::fold< ";
  ln "               boost::mpl::_1, ";
  ln "               boost::mpl::int_<0>, ";
  ln "               boost::mpl::quote2<sum_items> ";
  ln "             > ";
  ln "           >::type ";
  ln "         > ";
  ln "       >, ";
  ln "       boost::mpl::quote1<sum_vector> /* summarise the vector of numbers */ ";
  ln "     > ";
  ln "   >;";
  ln "  #include <boost/metaparse/foldl.hpp>";
  ln "";
  ln "  using exp_parser10 = ";
  ln "   build_parser< ";
  ln "     transform< ";
  ln "       sequence< ";
  ln "         int_token, ";
  ln "         foldl< ";
  ln "           sequence<plus_token, int_token>, ";
  ln "           boost::mpl::int_<0>, ";
  ln "           boost::mpl::quote2<sum_items> ";
  ln "         > ";
  ln "       >, ";
  ln "       boost::mpl::quote1<sum_vector>> ";
  ln "   >;";
  ln "  #include <boost/metaparse/foldl_start_with_parser.hpp>";
  ln "";
  ln "  using exp_parser11 = ";
  ln "   build_parser< ";
  ln "     foldl_start_with_parser< ";
  ln "       sequence<plus_token, int_token>, /* apply this parser repeatedly */ ";
  ln "       int_token, /* use this parser to get the initial value */ ";
  ln "       boost::mpl::quote2<sum_items> /* use this function to add a new value to the summary */ ";
  ln "     > ";
  ln "   >;";
  ln "  using minus_token = token<lit_c<'-'>>;";
  ln "";
  ln "  #include <boost/metaparse/one_of.hpp>";
  ln "";
  ln "  using exp_parser12 = ";
  ln "   build_parser< ";
  ln "     foldl_start_with_parser< ";
  ln "       sequence<one_of<plus_token, minus_token>, int_token>, ";
  ln "       int_token, ";
  ln "       boost::mpl::quote2<sum_items> ";
  ln "     > ";
  ln "   >;";
  ln "  #include <boost/mpl/minus.hpp>";
  ln "";
  ln "  template <class L, char Op, class R> struct eval_binary_op;";
  ln "";
  ln "  template <class L, class R> struct eval_binary_op<L, '+', R> : boost::mpl::plus<L, R>::type {};";
  ln "";
  ln "  template <class L, class R> struct eval_binary_op<L, '-', R> : boost::mpl::minus<L, R>::type {};";
  ln "";
  ln "  template <class S, class Item> ";
  ln "   struct binary_op : ";
  ln "     eval_binary_op< ";
  ln "       S, ";
  ln "       boost::mpl::at_c<Item, 0>::type::value, ";
  ln "       typename boost::mpl::at_c<Item, 1>::type ";
  ln "     > ";
  ln "     {};";
  ln "";
  ln "  using exp_parser13 = ";
  ln "   build_parser< ";
  ln "     foldl_start_with_parser< ";
  ln "       sequence<one_of<plus_token, minus_token>, int_token>, ";
  ln "       int_token, ";
  ln "       boost::mpl::quote2<binary_op> ";
  ln "     > ";
  ln "   >;";
  ln ""].

(** doc/before_7_2.qbk *)
Definition pages_27 : list str := [
  ln "[#before_7_2]";
  ln "['Definitions before section 7.2.]";
  ln "";
  ln "  #include <boost/metaparse/string.hpp>";
  ln "  #include <boost/metaparse/int_.hpp>";
  ln "";
  ln "  #include <boost/metaparse/build_parser.hpp>";
  ln "";
  ln "  using namespace boost::metaparse;";
  ln "";
  ln "  using exp_parser1 = build_parser<int_>;";
  ln "  #include <boost/metaparse/entire_input.hpp>";
  ln "";
  ln "  using exp_parser2 = build_parser<entire_input<int_>>;";
  ln "  #include <boost/metaparse/token.hpp>";
  ln "";
  ln "  using exp_parser3 = build_parser<entire_input<token<int_>>>;";
  ln "  #include <boost/metaparse/lit_c.hpp>";
  ln "";
  ln "  #include <boost/metaparse/sequence.hpp>";
  ln "";
  ln "  using exp_parser4 = build_parser<sequence<token<int_>, token<lit_c<'+'>>, token<int_>>>;";
  ln "";
  ln "  #include <metashell/formatter.hpp>";
  ln "  ";
  ln "  using int_token = token<int_>;";
  ln "";
  ln "  using plus_token = token<lit_c<'+'>>;";
  ln "";
  ln "  using exp_parser5 = build_parser<sequence<int_token, plus_token, int_token>>;";
  ln "  #include <boost/metaparse/transform.hpp>";
  ln "";
  ln "  #include <boost/mpl/plus.hpp>";
  ln "";
  ln "  #include <boost/mpl/at.hpp>";
  ln "";
  ln "  template <class Vector> ";
  ln "   struct eval_plus : ";
  ln "     boost::mpl::plus< ";
  ln "       typename boost::mpl::at_c<Vector, 0>::type, ";
  ln "       typename boost::mpl::at_c<Vector, 2>::type ";
  ln "     > {};";
  ln "";
  ln "  #include <boost/mpl/quote.hpp>";
  ln "";
  ln "  using exp_parser6 = ";
  ln "   build_parser< ";
  ln "     transform< ";
  ln "       sequence<int_token, plus_token, int_token>, ";
  ln "       boost::mpl::quote1<eval_plus> ";
  ln "     > ";
  ln "   >;";
  ln "  #include <boost/metaparse/any.hpp>";
  ln "";
  ln "  using exp_parser7 = ";
  ln "   build_parser< ";
  ln "     sequence< ";
  ln "       int_token,                                /* The first <number> */ ";
  ln "       repeated<sequence<plus_token, int_token>> /* The ""+ <number>"" elements */ ";
  ln "     > ";
  ln "   >;";
  ln "  using temp_result = exp_parser7::apply<BOOST_METAPARSE_STRING(""1 + 2 + 3 + 4"")>::type;";
  ln "  #include <boost/mpl/fold.hpp>";
  ln "";
  ln "  using vector_of_numbers = ";
  ln "   boost::mpl::vector< ";
  ln "     boost::mpl::int_<2>, ";
  ln "     boost::mpl::int_<5>, ";
  ln "     boost::mpl::int_<6> ";
  ln "   >;";
  ln "";
  ln "  template <class Vector> ";
  ln "   struct sum_vector : ";
  ln "      boost::mpl::fold< ";
  ln "        Vector, ";
  ln "        boost::mpl::int_<0>, ";
  ln "        boost::mpl::lambda< ";
  ln "          boost::mpl::plus<boost::mpl::_1, boost::mpl::_2> ";
  ln "        >::type ";
  ln "      > ";
  ln "    {};";
  ln "";
  ln "  template <class Sum, class Item> ";
  ln "     struct sum_items : ";
  ln "       boost::mpl::plus< ";
  ln "         Sum, ";
  ln "         typename boost::mpl::at_c<Item, 1>::type ";
  ln "       > ";
  ln "   {};";
  ln "  using exp_parser8 = ";
  ln "   build_parser< ";
  ln "     sequence< ";
  ln "       int_token, /* parse the first <number> */ ";
  ln "       transform< ";
  ln "         repeated<sequence<plus_token, int_token>>, /* parse the ""+ <number>"" elements */ ";
  ln "         /* lambda expression summarising the ""+ <number>"" elements using fold */ ";
  ln "         boost::mpl::lambda< ";
  ln "           /* The folding expression we have just created */ ";
  ln "           boost::mpl::fold< ";
  ln "             boost::mpl::_1, /* the argument of the lambda expression, the result */ ";
  ln "                             /* of the repeated<...> parser */ ";
  ln "             boost::mpl::int_<0>, ";
  ln "             boost::mpl::quote2<sum_items> ";
  ln "           > ";
  ln "         >::type ";
  ln "       > ";
  ln "     > ";
  ln "   >;";
  ln "";
  ln "  using exp_parser9 = ";
  ln "   build_parser< ";
  ln "     transform< ";
  ln "       /* What we had so far */ ";
  ln "       sequence< ";
  ln "         int_token, ";
  ln "         transform< ";
  ln "           repeated<sequence<plus_token, int_token>>, ";
  ln "           boost::mpl::lambda< ";
  ln "             boost::mpl::fold< ";
  ln "               boost::mpl::_1, ";
  ln "               boost::mpl::int_<0>, ";
  ln "               boost::mpl::quote2<sum_items> ";
  ln "             > ";
  ln "           >::type ";
  ln "         > ";
  ln "       >, ";
  ln "       boost::mpl::quote1<sum_vector> /* summarise the vector of numbers */ ";
  ln "     > ";
  ln "   >;";
  ln "  #include <boost/metaparse/foldl.hpp>";
  ln "";
  ln "  using exp_parser10 = ";
  ln "   build_parser< ";
  ln "     transform< ";
  ln "       sequence< ";
  ln "         int_token, ";
  ln "         foldl< ";
  ln "           sequence<plus_token, int_token>, ";
  ln "           boost::mpl::int_<0>, ";
  ln "           boost::mpl::quote2<sum_items> ";
  ln "         > ";
  ln "       >, ";
  ln "       boost::mpl::quote1<sum_vector>> ";
  ln "   >;";
  ln "  #include <boost/metaparse/foldl_start_with_parser.hpp>";
  ln "";
  ln "  using exp_parser11 = ";
  ln "   build_parser< ";
  ln "     foldl_start_with_parser< ";
  ln "       sequence<plus_token, int_token>, /* apply this parser repeatedly */ ";
  ln "       int_token, /* use this parser to get the initial value */ ";
  ln "       boost::mpl::quote2<sum_items> /* use this function to add a new value to the summary */ ";
  ln "     > ";
  ln "   >;";
  ln "  using minus_token = token<lit_c<'-'>>;";
  ln "";
  ln "  #include <boost/metaparse/one_of.hpp>";
  ln "";
  ln "  using exp_parser12 = ";
  ln "   build_parser< ";
  ln "     foldl_start_with_parser< ";
  ln "       sequence<one_of<plus_token, minus_token>, int_token>, ";
  ln "       int_token, ";
  ln "       boost::mpl::quote2<sum_items> ";
  ln "     > ";
  ln "   >;";
  ln "  #include <boost/mpl/minus.hpp>";
  ln "";
  ln "  template <class L, char Op, class R> struct eval_binary_op;";
  ln "";
  ln "  template <class L, class R> struct eval_binary_op<L, '+', R> : boost::mpl::plus<L, R>::type {};";
  ln "";
  ln "  template <class L, class R> struct eval_binary_op<L, '-', R> : boost::mpl::minus<L, R>::type {};";
  ln "";
  ln "  template <class S, class Item> ";
  ln "   struct binary_op : ";
  ln "     eval_binary_op< ";
  ln "       S, ";
  ln "       boost::mpl::at_c<Item, 0>::type::value, ";
  ln "       typename boost::mpl::at_c<Item, 1>::type ";
  ln "     > ";
  ln "     {};";
  ln "";
  ln "  using exp_parser13 = ";
  ln "   build_parser< ";
  ln "     foldl_start_with_parser< ";
  ln "       sequence<one_of<plus_token, minus_token>, int_token>, ";
  ln "       int_token, ";
  ln "       boost::mpl::quote2<binary_op> ";
  ln "     > ";
  ln "   >;";
  ln "  #include <boost/mpl/times.hpp>";
  ln "";
  ln "  template <class L, class R> struct eval_binary_op<L, '*', R> : boost::mpl::times<L, R>::type {};";
  ln "";
  ln "  using times_token = token<lit_c<'*'>>;";
  ln "";
  ln "  using exp_parser14 = ";
  ln "   build_parser< ";
  ln "     foldl_start_with_parser< ";
  ln "       sequence<one_of<plus_token, minus_token, times_token>, int_token>, ";
  ln "       int_token, ";
  ln "       boost::mpl::quote2<binary_op> ";
  ln "     > ";
  ln "   >;";
  ln ""].

(** doc/before_8.qbk *)
Definition pages_28 : list str := [
  ln "[#before_8]";
  ln "['Definitions before section 8.]";
  ln "";
  ln "  #include <boost/metaparse/string.hpp>";
  ln "  #include <boost/metaparse/int_.hpp>";
  ln "";
  ln "  #include <boost/metaparse/build_parser.hpp>";
  ln "";
  ln "  using namespace boost::metaparse;";
  ln "";
  ln "  using exp_parser1 = build_parser<int_>;";
  ln "  #include <boost/metaparse/entire_input.hpp>";
  ln "";
  ln "  using exp_parser2 = build_parser<entire_input<int_>>;";
  ln "  #include <boost/metaparse/token.hpp>";
  ln "";
  ln "  using exp_parser3 = build_parser<entire_input<token<int_>>>;";
  ln "  #include <boost/metaparse/lit_c.hpp>";
  ln "";
  ln "  #include <boost/metaparse/sequence.hpp>";
  ln "";
  ln "  using exp_parser4 = build_parser<sequence<token<int_>, token<lit_c<'+'>>, token<int_>>>;";
  ln "";
  ln "  #include <metashell/formatter.hpp>";
  ln "  ";
  ln "  using int_token = token<int_>;";
  ln "";
  ln "  using plus_token = token<lit_c<'+'>>;";
  ln "";
  ln "  using exp_parser5 = build_parser<sequence<int_token, plus_token, int_token>>;";
  ln "  #include <boost/metaparse/transform.hpp>";
  ln "";
  ln "  #include <boost/mpl/plus.hpp>";
  ln "";
  ln "  #include <boost/mpl/at.hpp>";
  ln "";
  ln "  template <class Vector> ";
  ln "   struct eval_plus : ";
  ln "     boost::mpl::plus< ";
  ln "       typename boost::mpl::at_c<Vector, 0>::type, ";
  ln "       typename boost::mpl::at_c<Vector, 2>::type ";
  ln "     > {};";
  ln "";
  ln "  #include <boost/mpl/quote.hpp>";
  ln "";
  ln "  using exp_parser6 = ";
  ln "   build_parser< ";
  ln "     transform< ";
  ln "       sequence<int_token, plus_token, int_token>, ";
  ln "       boost::mpl::quote1<eval_plus> ";
  ln "     > ";
  ln "   >;";
  ln "  #include <boost/metaparse/any.hpp>";
  ln "";
  ln "  using exp_parser7 = ";
  ln "   build_parser< ";
  ln "     sequence< ";
  ln "       int_token,                                /* The first <number> */ ";
  ln "       repeated<sequence<plus_token, int_token>> /* The ""+ <number>"" elements */ ";
  ln "     > ";
  ln "   >;";
  ln "  using temp_result = exp_parser7::apply<BOOST_METAPARSE_STRING(""1 + 2 + 3 + 4"")>::type;";
  ln "  #include <boost/mpl/fold.hpp>";
  ln "";
  ln "  using vector_of_numbers = ";
  ln "   boost::mpl::vector< ";
  ln "     boost::mpl::int_<2>, ";
  ln "     boost::mpl::int_<5>, ";
  ln "     boost::mpl::int_<6> ";
  ln "   >;";
  ln "";
  ln "  template <class Vector> ";
  ln "   struct sum_vector : ";
  ln "      boost::mpl::fold< ";
  ln "        Vector, ";
  ln "        boost::mpl::int_<0>, ";
  ln "        boost::mpl::lambda< ";
  ln "          boost::mpl::plus<boost::mpl::_1, boost::mpl::_2> ";
  ln "        >::type ";
  ln "      > ";
  ln "    {};";
  ln "";
  ln "  template <class Sum, class Item> ";
  ln "     struct sum_items : ";
  ln "       boost::mpl::plus< ";
  ln "         Sum, ";
  ln "         typename boost::mpl::at_c<Item, 1>::type ";
  ln "       > ";
  ln "   {};";
  ln "  using exp_parser8 = ";
  ln "   build_parser< ";
  ln "     sequence< ";
  ln "       int_token, /* parse the first <number> */ ";
  ln "       transform< ";
  ln "         repeated<sequence<plus_token, int_token>>, /* parse the ""+ <number>"" elements */ ";
  ln "         /* lambda expression summarising the ""+ <number>"" elements using fold */ ";
  ln "         boost::mpl::lambda< ";
  ln "           /* The folding expression we have just created */ ";
  ln "           boost::mpl::fold< ";
  ln "             boost::mpl::_1, /* the argument of the lambda expression, the result */ ";
  ln "                             /* of the repeated<...> parser */ ";
  ln "             boost::mpl::int_<0>, ";
  ln "             boost::mpl::quote2<sum_items> ";
  ln "           > ";
  ln "         >::type ";
  ln "       > ";
  ln "     > ";
  ln "   >;";
  ln "";
  ln "  using exp_parser9 = ";
  ln "   build_parser< ";
  ln "     transform< ";
  ln "       /* What we had so far */ ";
  ln "       sequence< ";
  ln "         int_token, ";
  ln "         transform< ";
  ln "           repeated<sequence<plus_token, int_token>>, ";
  ln "           boost::mpl::lambda< ";
  ln "             boost::mpl::fold< ";
  ln "               boost::mpl::_1, ";
  ln "               boost::mpl::int_<0>, ";
  ln "               boost::mpl::quote2<sum_items> ";
  ln "             > ";
  ln "           >::type ";
  ln "         > ";
  ln "       >, ";
  ln "       boost::mpl::quote1<sum_vector> /* summarise the vector of numbers */ ";
  ln "     > ";
  ln "   >;";
  ln "  #include <boost/metaparse/foldl.hpp>";
  ln "";
  ln "  using exp_parser10 = ";
  ln "   build_parser< ";
  ln "     transform< ";
  ln "       sequence< ";
  ln "         int_token, ";
  ln "         foldl< ";
  ln "           sequence<plus_token, int_token>, ";
  ln "           boost::mpl::int_<0>, ";
  ln "           boost::mpl::quote2<sum_items> ";
  ln "         > ";
  ln "       >, ";
  ln "       boost::mpl::quote1<sum_vector>> ";
  ln "   >;";
  ln "  #include <boost/metaparse/foldl_start_with_parser.hpp>";
  ln "";
  ln "  using exp_parser11 = ";
  ln "   build_parser< ";
  ln "     foldl_start_with_parser< ";
  ln "       sequence<plus_token, int_token>, /* apply this parser repeatedly */ ";
  ln "       int_token, /* use this parser to get the initial value */ ";
  ln "       boost::mpl::quote2<sum_items> /* use this function to add a new value to the summary */ ";
  ln "     > ";
  ln "   >;";
  ln "  using minus_token = token<lit_c<'-'>>;";
  ln "";
  ln "  #include <boost/metaparse/one_of.hpp>";
  ln "";
  ln "  using exp_parser12 = ";
  ln "   build_parser< ";
  ln "     foldl_start_with_parser< ";
  ln "       sequence<one_of<plus_token, minus_token>, int_token>, ";
  ln "       int_token, ";
  ln "       boost::mpl::quote2<sum_items> ";
  ln "     > ";
  ln "   >;";
  ln "  #include <boost/mpl/minus.hpp>";
  ln "";
  ln "  template <class L, char Op, class R> struct eval_binary_op;";
  ln "";
  ln "  template <class L, class R> struct eval_binary_op<L, '+', R> : boost::mpl::plus<L, R>::type {};";
  ln "";
  ln "  template <class L, class R> struct eval_binary_op<L, '-', R> : boost::mpl::minus<L, R>::type {};";
  ln "";
  ln "  template <class S, class Item> ";
  ln "   struct binary_op : ";
  ln "     eval_binary_op< ";
  ln "       S, ";
  ln "       boost::mpl::at_c<Item, 0>::type::value, ";
  ln "       typename boost::mpl::at_c<Item, 1>::type ";
  ln "     > ";
  ln "     {};";
  ln "";
  ln "  using exp_parser13 = ";
  ln "   build_parser< ";
  ln "     foldl_start_with_parser< ";
  ln "       sequence<one_of<plus_token, minus_token>, int_token>, ";
  ln "       int_token, ";
  ln "       boost::mpl::quote2<binary_op> ";
  ln "     > ";
  ln "   >;";
  ln "  #include <boost/mpl/times.hpp>";
  ln "";
  ln "  template <class L, class R> struct eval_binary_op<L, '*', R> : boost::mpl::times<L, R>::type {};";
  ln "";
  ln "  using times_token = token<lit_c<'*'>>;";
  ln "";
  ln "  using exp_parser14 = ";
  ln "   build_parser< ";
  ln "     foldl_start_with_parser< ";
  ln "       sequence<one_of<plus_token, minus_token, times_token>, int_token>, ";
  ln "       int_token, ";
  ln "       boost::mpl::quote2<binary_op> ";
  ln "     > ";
  ln "   >;";
  ln "  using mult_exp1 = foldl_start_with_parser<sequence<times_token, int_token>, int_token, boost::mpl::quote2<binary_op>>;";
  ln "";
  ln "  using exp_parser15 = ";
  ln "   build_parser< ";
  ln "     foldl_start_with_parser< ";
  ln "       sequence<one_of<plus_token, minus_token>, mult_exp1>, ";
  ln "       mult_exp1, ";
  ln "       boost::mpl::quote2<binary_op> ";
  ln "     > ";
  ln "   >;";
  ln ""].

(** doc/before_8_1.qbk *)
Definition pages_29 : list str := [
  ln "[#before_8_1]";
  ln "['Definitions before section 8.1.]";
  ln "";
  ln "  #include <boost/metaparse/string.hpp>";
  ln "  #include <boost/metaparse/int_.hpp>";
  ln "";
  ln "  #include <boost/metaparse/build_parser.hpp>";
  ln "";
  ln "  using namespace boost::metaparse;";
  ln "";
  ln "  using exp_parser1 = build_parser<int_>;";
  ln "  #include <boost/metaparse/entire_input.hpp>";
  ln "";
  ln "  using exp_parser2 = build_parser<entire_input<int_>>;";
  ln "  #include <boost/metaparse/token.hpp>";
  ln "";
  ln "  using exp_parser3 = build_parser<entire_input<token<int_>>>;";
  ln "  #include <boost/metaparse/lit_c.hpp>";
  ln "";
  ln "  #include <boost/metaparse/sequence.hpp>";
  ln "";
  ln "  using exp_parser4 = build_parser<sequence<token<int_>, token<lit_c<'+'>>, token<int_>>>;";
  ln "";
  ln "  #include <metashell/formatter.hpp>";
  ln "  ";
  ln "  using int_token = token<int_>;";
  ln "";
  ln "  using plus_token = token<lit_c<'+'>>;";
  ln "";
  ln "  using exp_parser5 = build_parser<sequence<int_token, plus_token, int_token>>;";
  ln "  #include <boost/metaparse/transform.hpp>";
  ln "";
  ln "  #include <boost/mpl/plus.hpp>";
  ln "";
  ln "  #include <boost/mpl/at.hpp>";
  ln "";
  ln "  template <class Vector> ";
  ln "   struct eval_plus : ";
  ln "     boost::mpl::plus< ";
  ln "       typename boost::mpl::at_c<Vector, 0>::type, ";
  ln "       typename boost::mpl::at_c<Vector, 2>::type ";
  ln "     > {};";
  ln "";
  ln "  #include <boost/mpl/quote.hpp>";
  ln "";
  ln "  using exp_parser6 = ";
  ln "   build_parser< ";
  ln "     transform< ";
  ln "       sequence<int_token, plus_token, int_token>, ";
  ln "       boost::mpl::quote1<eval_plus> ";
  ln "     > ";
  ln "   >;";
  ln "  #include <boost/metaparse/any.hpp>";
  ln "";
  ln "  using exp_parser7 = ";
  ln "   build_parser< ";
  ln "     sequence< ";
  ln "       int_token,                                /* The first <number> */ ";
  ln "       repeated<sequence<plus_token, int_token>> /* The ""+ <number>"" elements */ ";
  ln "     > ";
  ln "   >;";
  ln "  using temp_result = exp_parser7::apply<BOOST_METAPARSE_STRING(""1 + 2 + 3 + 4"")>::type;";
  ln "  #include <boost/mpl/fold.hpp>";
  ln "";
  ln "  using vector_of_numbers = ";
  ln "   boost::mpl::vector< ";
  ln "     boost::mpl::int_<2>, ";
  ln "     boost::mpl::int_<5>, ";
  ln "     boost::mpl::int_<6> ";
  ln "   >;";
  ln "";
  ln "  template <class Vector> ";
  ln "   struct sum_vector : ";
  ln "      boost::mpl::fold< ";
  ln "        Vector, ";
  ln "        boost::mpl::int_<0>, ";
  ln "        boost::mpl::lambda< ";
  ln "          boost::mpl::plus<boost::mpl::_1, boost::mpl::_2> ";
  ln "        >::type ";
  ln "      > ";
  ln "    {};";
  ln "";
  ln "  template <class Sum, class Item> ";
  ln "     struct sum_items : ";
  ln "       boost::mpl::plus< ";
  ln "         Sum, ";
  ln "         typename boost::mpl::at_c<Item, 1>::type ";
  ln "       > ";
  ln "   {};";
  ln "  using exp_parser8 = ";
  ln "   build_parser< ";
  ln "     sequence< ";
  ln "       int_token, /* parse the first <number> */ ";
  ln "       transform< ";
  ln "         repeated<sequence<plus_token, int_token>>, /* parse the ""+ <number>"" elements */ ";
  ln "         /* lambda expression summarising the ""+ <number>"" elements using fold */ ";
  ln "         boost::mpl::lambda< ";
  ln "           /* The folding expression we have just created */ ";
  ln "           boost::mpl::fold< ";
  ln "             boost::mpl::_1, /* the argument of the lambda expression, the result */ ";
  ln "                             /* of the repeated<...> parser */ ";
  ln "             boost::mpl::int_<0>, ";
  ln "             boost::mpl::quote2<sum_items> ";
  ln "           > ";
  ln "         >::type ";
  ln "       > ";
  ln "     > ";
  ln "   >;";
  ln "";
  ln "  using exp_parser9 = ";
  ln "   build_parser< ";
  ln "     transform< ";
  ln "       /* What we had so far */ ";
  ln "       sequence< ";
  ln "         int_token, ";
  ln "         transform< ";
  ln "           repeated<sequence<plus_token, int_token>>, ";
  ln "           boost::mpl::lambda< ";
  ln "             boost::mpl::fold< ";
  ln "               boost::mpl::_1, ";
  ln "               boost::mpl::int_<0>, ";
  ln "               boost::mpl::quote2<sum_items> ";
  ln "             > ";
  ln "           >::type ";
  ln "         > ";
  ln "       >, ";
  ln "       boost::mpl::quote1<sum_vector> /* summarise the vector of numbers */ ";
  ln "     > ";
  ln "   >;";
  ln "  #include <boost/metaparse/foldl.hpp>";
  ln "";
  ln "  using exp_parser10 = ";
  ln "   build_parser< ";
  ln "     transform< ";
  ln "       sequence< ";
  ln "         int_token, ";
  ln "         foldl< ";
  ln "           sequence<plus_token, int_token>, ";
  ln "           boost::mpl::int_<0>, ";
  ln "           boost::mpl::quote2<sum_items> ";
  ln "         > ";
  ln "       >, ";
  ln "       boost::mpl::quote1<sum_vector>> ";
  ln "   >;";
  ln "  #include <boost/metaparse/foldl_start_with_parser.hpp>";
  ln "";
  ln "  using exp_parser11 = ";
  ln "   build_parser< ";
  ln "     foldl_start_with_parser< ";
  ln "       sequence<plus_token, int_token>, /* apply this parser repeatedly */ ";
  ln "       int_token, /* use this parser to get the initial value */ ";
  ln "       boost::mpl::quote2<sum_items> /* use this function to add a new value to the summary */ ";
  ln "     > ";
  ln "   >;";
  ln "  using minus_token = token<lit_c<'-'>>;";
  ln "";
  ln "  #include <boost/metaparse/one_of.hpp>";
  ln "";
  ln "  using exp_parser12 = ";
  ln "   build_parser< ";
  ln "     foldl_start_with_parser< ";
  ln "       sequence<one_of<plus_token, minus_token>, int_token>, ";
  ln "       int_token, ";
  ln "       boost::mpl::quote2<sum_items> ";
  ln "     > ";
  ln "   >;";
  ln "  #include <boost/mpl/minus.hpp>";
  ln "";
  ln "  template <class L, char Op, class R> struct eval_binary_op;";
  ln "";
  ln "  template <class L, class R> struct eval_binary_op<L, '+', R> : boost::mpl::plus<L, R>::type {};";
  ln "";
  ln "  template <class L, class R> struct eval_binary_op<L, '-', R> : boost::mpl::minus<L, R>::type {};";
  ln "";
  ln "  template <class S, class Item> ";
  ln "   struct binary_op : ";
  ln "     eval_binary_op< ";
  ln "       S, ";
  ln "       boost::mpl::at_c<Item, 0>::type::value, ";
  ln "       typename boost::mpl::at_c<Item, 1>::type ";
  ln "     > ";
  ln "     {};";
  ln "";
  ln "  using exp_parser13 = ";
  ln "   build_parser< ";
  ln "     foldl_start_with_parser< ";
  ln "       sequence<one_of<plus_token, minus_token>, int_token>, ";
  ln "       int_token, ";
  ln "       boost::mpl::quote2<binary_op> ";
  ln "     > ";
  ln "   >;";
  ln "  #include <boost/mpl/times.hpp>";
  ln "";
  ln "  template <class L, class R> struct eval_binary_op<L, '*', R> : boost::mpl::times<L, R>::type {};";
  ln "";
  ln "  using times_token = token<lit_c<'*'>>;";
  ln "";
  ln "  using exp_parser14 = ";
  ln "   build_parser< ";
  ln "     foldl_start_with_parser< ";
  ln "       sequence<one_of<plus_token, minus_token, times_token>, int_token>, ";
  ln "       int_token, ";
  ln "       boost::mpl::quote2<binary_op> ";
  ln "     > ";
  ln "   >;";
  ln "  using mult_exp1 = foldl_start_with_parser<sequence<times_token, int_token>, int_token, boost::mpl::quote2<binary_op>>;";
  ln "";
  ln "  using exp_parser15 = ";
  ln "   build_parser< ";
  ln "     foldl_start_with_parser< ";
  ln "       sequence<one_of<plus_token, minus_token>, mult_exp1>, ";
  ln "       mult_exp1, ";
  ln "       boost::mpl::quote2<binary_op> ";
  ln "     > ";
  ln "   >;";
  ln "  #include <boost/mpl/divides.hpp>";
  ln "";
  ln "  template <class L, class R> struct eval_binary_op<L, '/', R> : boost::mpl::divides<L, R>::type {};";
  ln "";
  ln "  using divides_token = token<lit_c<'/'>>;";
  ln "";
  ln "  using mult_exp2 = ";
  ln "   foldl_start_with_parser< ";
  ln "     sequence<one_of<times_token, divides_token>, int_token>, ";
  ln "     int_token, ";
  ln "     boost::mpl::quote2<binary_op> ";
  ln "   >;";
  ln "";
  ln "  using exp_parser16 = ";
  ln "   build_parser< ";
  ln "     foldl_start_with_parser< ";
  ln "       sequence<one_of<plus_token, minus_token>, mult_exp2>, ";
  ln "       mult_exp2, ";
  ln "       boost::mpl::quote2<binary_op> ";
  ln "     > ";
  ln "   >;";
  ln ""].

(** doc/before_8_2.qbk *)
Definition pages_30 : list str := [
  ln "[#before_8_2]";
  ln "['Definitions before section 8.2.]";
  ln "";
  ln "  #include <boost/metaparse/string.hpp>";
  ln "  #include <boost/metaparse/int_.hpp>";
  ln "";
  ln "  #include <boost/metaparse/build_parser.hpp>";
  ln "";
  ln "  using namespace boost::metaparse;";
  ln "";
  ln "  using exp_parser1 = build_parser<int_>;";
  ln "  #include <boost/metaparse/entire_input.hpp>";
  ln "";
  ln "  using exp_parser2 = build_parser<entire_input<int_>>;";
  ln "  #include <boost/metaparse/token.hpp>";
  ln "";
  ln "  using exp_parser3 = build_parser<entire_input<token<int_>>>;";
  ln "  #include <boost/metaparse/lit_c.hpp>";
  ln "";
  ln "  #include <boost/metaparse/sequence.hpp>";
  ln "";
  ln "  using exp_parser4 = build_parser<sequence<token<int_>, token<lit_c<'+'>>, token<int_>>>;";
  ln "";
  ln "  #include <metashell/formatter.hpp>";
  ln "  ";
  ln "  using int_token = token<int_>;";
  ln "";
  ln "  using plus_token = token<lit_c<'+'>>;";
  ln "";
  ln "  using exp_parser5 = build_parser<sequence<int_token, plus_token, int_token>>;";
  ln "  #include <boost/metaparse/transform.hpp>";
  ln "";
  ln "  #include <boost/mpl/plus.hpp>";
  ln "";
  ln "  #include <boost/mpl/at.hpp>";
  ln "";
  ln "  template <class Vector> ";
  ln "   struct eval_plus : ";
  ln "     boost::mpl::plus< ";
  ln "       typename boost::mpl::at_c<Vector, 0>::type, ";
  ln "       typename boost::mpl::at_c<Vector, 2>::type ";
  ln "     > {};";
  ln "";
  ln "  #include <boost/mpl/quote.hpp>";
  ln "";
  ln "  using exp_parser6 = ";
  ln "   build_parser< ";
  ln "     transform< ";
  ln "       sequence<int_token, plus_token, int_token>, ";
  ln "       boost::mpl::quote1<eval_plus> ";
  ln "     > ";
  ln "   >;";
  ln "  #include <boost/metaparse/any.hpp>";
  ln "";
  ln "  using exp_parser7 = ";
  ln "   build_parser< ";
  ln "     sequence< ";
  ln "       int_token,                                /* The first <number> */ ";
  ln "       repeated<sequence<plus_token, int_token>> /* The ""+ <number>"" elements */ ";
  ln "     > ";
  ln "   >;";
  ln "  using temp_result = exp_parser7::apply<BOOST_METAPARSE_STRING(""1 + 2 + 3 + 4"")>::type;";
  ln "  #include <boost/mpl/fold.hpp>";
  ln "";
  ln "  using vector_of_numbers = ";
  ln "   boost::mpl::vector< ";
  ln "     boost::mpl::int_<2>, ";
  ln "     boost::mpl::int_<5>, ";
  ln "     boost::mpl::int_<6> ";
  ln "   >;";
  ln "";
  ln "  template <class Vector> ";
  ln "   struct sum_vector : ";
  ln "      boost::mpl::fold< ";
  ln "        Vector, ";
  ln "        boost::mpl::int_<0>, ";
  ln "        boost::mpl::lambda< ";
  ln "          boost::mpl::plus<boost::mpl::_1, boost::mpl::_2> ";
  ln "        >::type ";
  ln "      > ";
  ln "    {};";
  ln "";
  ln "  template <class Sum, class Item> ";
  ln "     struct sum_items : ";
  ln "       boost::mpl::plus< ";
  ln "         Sum, ";
  ln "         typename boost::mpl::at_c<Item, 1>::type ";
  ln "       > ";
  ln "   {};";
  ln "  using exp_parser8 = ";
  ln "   build_parser< ";
  ln "     sequence< ";
  ln "       int_token, /* parse the first <number> */ ";
  ln "       transform< ";
  ln "         repeated<sequence<plus_token, int_token>>, /* parse the ""+ <number>"" elements */ ";
  ln "         /* lambda expression summarising the ""+ <number>"" elements using fold */ ";
  ln "         boost::mpl::lambda< ";
  ln "           /* The folding expression we have just created */ ";
  ln "           boost::mpl::fold< ";
  ln "             boost::mpl::_1, /* the argument of the lambda expression, the result */ ";
  ln "                             /* of the repeated<...> parser */ ";
  ln "             boost::mpl::int_<0>, ";
  ln "             boost::mpl::quote2<sum_items> ";
  ln "           > ";
  ln "         >::type ";
  ln "       > ";
  ln "     > ";
  ln "   >;";
  ln "";
  ln "  using exp_parser9 = ";
  ln "   build_parser< ";
  ln "     transform< ";
  ln "       /* What we had so far */ ";
  ln "       sequence< ";
  ln "         int_token, ";
  ln "         transform< ";
  ln "           repeated<sequence<plus_token, int_token>>, ";
  ln "           boost::mpl::lambda< ";
  ln "             boost::mpl::fold< ";
  ln "               boost::mpl::_1, ";
  ln "               boost::mpl::int_<0>, ";
  ln "               boost::mpl::quote2<sum_items> ";
  ln "             > ";
  ln "           >::type ";
  ln "         > ";
  ln "       >, ";
  ln "       boost::mpl::quote1<sum_vector> /* summarise the vector of numbers */ ";
  ln "     > ";
  ln "   >;";
  ln "  #include <boost/metaparse/foldl.hpp>";
  ln "";
  ln "  using exp_parser10 = ";
  ln "   build_parser< ";
  ln "     transform< ";
  ln "       sequence< ";
  ln "         int_token, ";
  ln "         foldl< ";
  ln "           sequence<plus_token, int_token>, ";
  ln "           boost::mpl::int_<0>, ";
  ln "           boost::mpl::quote2<sum_items> ";
  ln "         > ";
  ln "       >, ";
  ln "       boost::mpl::quote1<sum_vector>> ";
  ln "   >;";
  ln "  #include <boost/metaparse/foldl_start_with_parser.hpp>";
  ln "";
  ln "  using exp_parser11 = ";
  ln "   build_parser< ";
  ln "     foldl_start_with_parser< ";
  ln "       sequence<plus_token, int_token>, /* apply this parser repeatedly */ ";
  ln "       int_token, /* use this parser to get the initial value */ ";
  ln "       boost::mpl::quote2<sum_items> /* use this function to add a new value to the summary */ ";
  ln "     > ";
  ln "   >;";
  ln "  using minus_token = token<lit_c<'-'>>;";
  ln "";
  ln "  #include <boost/metaparse/one_of.hpp>";
  ln "";
  ln "  using exp_parser12 = ";
  ln "   build_parser< ";
  ln "     foldl_start_with_parser< ";
  ln "       sequence<one_of<plus_token, minus_token>, int_token>, ";
  ln "       int_token, ";
  ln "       boost::mpl::quote2<sum_items> ";
  ln "     > ";
  ln "   >;";
  ln "  #include <boost/mpl/minus.hpp>";
  ln "";
  ln "  template <class L, char Op, class R> struct eval_binary_op;";
  ln "";
  ln "  template <class L, class R> struct eval_binary_op<L, '+', R> : boost::mpl::plus<L, R>::type {};";
  ln "";
  ln "  template <class L, class R> struct eval_binary_op<L, '-', R> : boost::mpl::minus<L, R>::type {};";
  ln "";
  ln "  template <class S, class Item> ";
  ln "   struct binary_op : ";
  ln "     eval_binary_op< ";
  ln "       S, ";
  ln "       boost::mpl::at_c<Item, 0>::type::value, ";
  ln "       typename boost::mpl::at_c<Item, 1>::type ";
  ln "     > ";
  ln "     {};";
  ln "";
  ln "  using exp_parser13 = ";
  ln "   build_parser< ";
  ln "     foldl_start_with_parser< ";
  ln "       sequence<one_of<plus_token, minus_token>, int_token>, ";
  ln "       int_token, ";
  ln "       boost::mpl::quote2<binary_op> ";
  ln "     > ";
  ln "   >;";
  ln "  #include <boost/mpl/times.hpp>";
  ln "";
  ln "  template <class L, class R> struct eval_binary_op<L, '*', R> : boost::mpl::times<L, R>::type {};";
  ln "";
  ln "  using times_token = token<lit_c<'*'>>;";
  ln "";
  ln "  using exp_parser14 = ";
  ln "   build_parser< ";
  ln "     foldl_start_with_parser< ";
  ln "       sequence<one_of<plus_token, minus_token, times_token>, int_token>, ";
  ln "       int_token, ";
  ln "       boost::mpl::quote2<binary_op> ";
  ln "     > ";
  ln "   >;";
  ln "  using mult_exp1 = foldl_start_with_parser<sequence<times_token, int_token>, int_token, boost::mpl::quote2<binary_op>>;";
  ln "";
  ln "  using exp_parser15 = ";
  ln "   build_parser< ";
  ln "     foldl_start_with_parser< ";
  ln "       sequence<one_of<plus_token, minus_token>, mult_exp1>, ";
  ln "       mult_exp1, ";
  ln "       boost::mpl::quote2<binary_op> ";
  ln "     > ";
  ln "   >;";
  ln "  #include <boost/mpl/divides.hpp>";
  ln "";
  ln "  template <class L, class R> struct eval_binary_op<L, '/', R> : boost::mpl::divides<L, R>::type {};";
  ln "";
  ln "  using divides_token = token<lit_c<'/'>>;";
  ln "";
  ln "  using mult_exp2 = ";
  ln "   foldl_start_with_parser< ";
  ln "     sequence<one_of<times_token, divides_token>, int_token>, ";
  ln "     int_token, ";
  ln "     boost::mpl::quote2<binary_op> ";
  ln "   >;";
  ln "";
  ln "  using exp_parser16 = ";
  ln "   build_parser< ";
  ln "     foldl_start_with_parser< ";
  ln "       sequence<one_of<plus_token, minus_token>, mult_exp2>, ";
  ln "       mult_exp2, ";
  ln "       boost::mpl::quote2<binary_op> ";
  ln "     > ";
  ln "   >;";
  ln ""].

(** doc/before_9.qbk *)
Definition pages_31 : list str := [
  ln "[#before_9]";
  ln "['Definitions before section 9.]";
  ln "";
  ln "  #include <boost/metaparse/string.hpp>";
  ln "  #include <boost/metaparse/int_.hpp>";
  ln "";
  ln "  #include <boost/metaparse/build_parser.hpp>";
  ln "";
  ln "  using namespace boost::metaparse;";
  ln "";
  ln "  using exp_parser1 = build_parser<int_>;";
  ln "  #include <boost/metaparse/entire_input.hpp>";
  ln "";
  ln "  using exp_parser2 = build_parser<entire_input<int_>>;";
  ln "  #include <boost/metaparse/token.hpp>";
  ln "";
  ln "  using exp_parser3 = build_parser<entire_input<token<int_>>>;";
  ln "  #include <boost/metaparse/lit_c.hpp>";
  ln "";
  ln "  #include <boost/metaparse/sequence.hpp>";
  ln "";
  ln "  using exp_parser4 = build_parser<sequence<token<int_>, token<lit_c<'+'>>, token<int_>>>;";
  ln "";
  ln "  #include <metashell/formatter.hpp>";
  ln "  ";
  ln "  using int_token = token<int_>;";
  ln "";
  ln "  using plus_token = token<lit_c<'+'>>;";
  ln "";
  ln "  using exp_parser5 = build_parser<sequence<int_token, plus_token, int_token>>;";
  ln "  #include <boost/metaparse/transform.hpp>";
  ln "";
  ln "  #include <boost/mpl/plus.hpp>";
  ln "";
  ln "  #include <boost/mpl/at.hpp>";
  ln "";
  ln "  template <class Vector> ";
  ln "   struct eval_plus : ";
  ln "     boost::mpl::plus< ";
  ln "       typename boost::mpl::at_c<Vector, 0>::type, ";
  ln "       typename boost::mpl::at_c<Vector, 2>::type ";
  ln "     > {};";
  ln "";
  ln "  #include <boost/mpl/quote.hpp>";
  ln "";
  ln "  using exp_parser6 = ";
  ln "   build_parser< ";
  ln "     transform< ";
  ln "       sequence<int_token, plus_token, int_token>, ";
  ln "       boost::mpl::quote1<eval_plus> ";
  ln "     > ";
  ln "   >;";
  ln "  #include <boost/metaparse/any.hpp>";
  ln "";
  ln "  using exp_parser7 = ";
  ln "   build_parser< ";
  ln "     sequence< ";
  ln "       int_token,                                /* The first <number> */ ";
  ln "       repeated<sequence<plus_token, int_token>> /* The ""+ <number>"" elements */ ";
  ln "     > ";
  ln "   >;";
  ln "  using temp_result = exp_parser7::apply<BOOST_METAPARSE_STRING(""1 + 2 + 3 + 4"")>::type;";
  ln "  #include <boost/mpl/fold.hpp>";
  ln "";
  ln "  using vector_of_numbers = ";
  ln "   boost::mpl::vector< ";
  ln "     boost::mpl::int_<2>, ";
  ln "     boost::mpl::int_<5>, ";
  ln "     boost::mpl::int_<6> ";
  ln "   >;";
  ln "";
  ln "  template <class Vector> ";
  ln "   struct sum_vector : ";
  ln "      boost::mpl::fold< ";
  ln "        Vector, ";
  ln "        boost::mpl::int_<0>, ";
  ln "        boost::mpl::lambda< ";
  ln "          boost::mpl::plus<boost::mpl::_1, boost::mpl::_2> ";
  ln "        >::type ";
  ln "      > ";
  ln "    {};";
  ln "";
  ln "  template <class Sum, class Item> ";
  ln "     struct sum_items : ";
  ln "       boost::mpl::plus< ";
  ln "         Sum, ";
  ln "         typename boost::mpl::at_c<Item, 1>::type ";
  ln "       > ";
  ln "   {};";
  ln "  using exp_parser8 = ";
  ln "   build_parser< ";
  ln "     sequence< ";
  ln "       int_token, /* parse the first <number> */ ";
  ln "       transform< ";
  ln "         repeated<sequence<plus_token, int_token>>, /* parse the ""+ <number>"" elements */ ";
  ln "         /* lambda expression summarising the ""+ <number>"" elements using fold */ ";
  ln "         boost::mpl::lambda< ";
  ln "           /* The folding expression we have just created */ ";
  ln "           boost::mpl::fold< ";
  ln "             boost::mpl::_1, /* the argument of the lambda expression, the result */ ";
  ln "                             /* of the repeated<...> parser */ ";
  ln "             boost::mpl::int_<0>, ";
  ln "             boost::mpl::quote2<sum_items> ";
  ln "           > ";
  ln "         >::type ";
  ln "       > ";
  ln "     > ";
  ln "   >;";
  ln "";
  ln "  using exp_parser9 = ";
  ln "   build_parser< ";
  ln "     transform< ";
  ln "       /* What we had so far */ ";
  ln "       sequence< ";
  ln "         int_token, ";
  ln "         transform< ";
  ln "           repeated<sequence<plus_token, int_token>>, ";
  ln "           boost::mpl::lambda< ";
  ln "             boost::mpl::fold< ";
  ln "               boost::mpl::_1, ";
  ln "               boost::mpl::int_<0>, ";
  ln "               boost::mpl::quote2<sum_items> ";
  ln "             > ";
  ln "           >::type ";
  ln "         > ";
  ln "       >, ";
  ln "       boost::mpl::quote1<sum_vector> /* summarise the vector of numbers */ ";
  ln "     > ";
  ln "   >;";
  ln "  #include <boost/metaparse/foldl.hpp>";
  ln "";
  ln "  using exp_parser10 = ";
  ln "   build_parser< ";
  ln "     transform< ";
  ln "       sequence< ";
  ln "         int_token, ";
  ln "         foldl< ";
  ln "           sequence<plus_token, int_token>, ";
  ln "           boost::mpl::int_<0>, ";
  ln "           boost::mpl::quote2<sum_items> ";
  ln "         > ";
  ln "       >, ";
  ln "       boost::mpl::quote1<sum_vector>> ";
  ln "   >;";
  ln "  #include <boost/metaparse/foldl_start_with_parser.hpp>";
  ln "";
  ln "  using exp_parser11 = ";
  ln "   build_parser< ";
  ln "     foldl_start_with_parser< ";
  ln "       sequence<plus_token, int_token>, /* apply this parser repeatedly */ ";
  ln "       int_token, /* use this parser to get the initial value */ ";
  ln "       boost::mpl::quote2<sum_items> /* use this function to add a new value to the summary */ ";
  ln "     > ";
  ln "   >;";
  ln "  using minus_token = token<lit_c<'-'>>;";
  ln "";
  ln "  #include <boost/metaparse/one_of.hpp>";
  ln "";
  ln "  using exp_parser12 = ";
  ln "   build_parser< ";
  ln "     foldl_start_with_parser< ";
  ln "       sequence<one_of<plus_token, minus_token>, int_token>, ";
  ln "       int_token, ";
  ln "       boost::mpl::quote2<sum_items> ";
  ln "     > ";
  ln "   >;";
  ln "  #include <boost/mpl/minus.hpp>";
  ln "";
  ln "  template <class L, char Op, class R> struct eval_binary_op;";
  ln "";
  ln "  template <class L, class R> struct eval_binary_op<L, '+', R> : boost::mpl::plus<L, R>::type {};";
  ln "";
  ln "  template <class L, class R> struct eval_binary_op<L, '-', R> : boost::mpl::minus<L, R>::type {};";
  ln "";
  ln "  template <class S, class Item> ";
  ln "   struct binary_op : ";
  ln "     eval_binary_op< ";
  ln "       S, ";
  ln "       boost::mpl::at_c<Item, 0>::type::value, ";
  ln "       typename boost::mpl::at_c<Item, 1>::type ";
  ln "     > ";
  ln "     {};";
  ln "";
  ln "  using exp_parser13 = ";
  ln "   build_parser< ";
  ln "     foldl_start_with_parser< ";
  ln "       sequence<one_of<plus_token, minus_token>, int_token>, ";
  ln "       int_token, ";
  ln "       boost::mpl::quote2<binary_op> ";
  ln "     > ";
  ln "   >;";
  ln "  #include <boost/mpl/times.hpp>";
  ln "";
  ln "  template <class L, class R> struct eval_binary_op<L, '*', R> : boost::mpl::times<L, R>::type {};";
  ln "";
  ln "  using times_token = token<lit_c<'*'>>;";
  ln "";
  ln "  using exp_parser14 = ";
  ln "   build_parser< ";
  ln "     foldl_start_with_parser< ";
  ln "       sequence<one_of<plus_token, minus_token, times_token>, int_token>, ";
  ln "       int_token, ";
  ln "       boost::mpl::quote2<binary_op> ";
  ln "     > ";
  ln "   >;";
  ln "  using mult_exp1 = foldl_start_with_parser<sequence<times_token, int_token>, int_token, boost::mpl::quote2<binary_op>>;";
  ln "";
  ln "  using exp_parser15 = ";
  ln "   build_parser< ";
  ln "     foldl_start_with_parser< ";
  ln "       sequence<one_of<plus_token, minus_token>, mult_exp1>, ";
  ln "       mult_exp1, ";
  ln "       boost::mpl::quote2<binary_op> ";
  ln "     > ";
  ln "   >;";
  ln "  #include <boost/mpl/divides.hpp>";
  ln "";
  ln "  template <class L, class R> struct eval_binary_op<L, '/', R> : boost::mpl::divides<L, R>::type {};";
  ln "";
  ln "  using divides_token = token<lit_c<'/'>>;";
  ln "";
  ln "  using mult_exp2 = ";
  ln "   foldl_start_with_parser< ";
  ln "     sequence<one_of<times_token, divides_token>, int_token>, ";
  ln "     int_token, ";
  ln "     boost::mpl::quote2<binary_op> ";
  ln "   >;";
  ln "";
  ln "  using exp_parser16 = ";
  ln "   build_parser< ";
  ln "     foldl_start_with_parser< ";
  ln "       sequence<one_of<plus_token, minus_token>, mult_exp2>, ";
  ln "       mult_exp2, ";
  ln "       boost::mpl::quote2<binary_op> ";
  ln "     > ";
  ln "   >;";
  ln "  template <class S, class Item> ";
  ln "   struct reverse_binary_op : ";
  ln "     eval_binary_op< ";
  ln "       typename boost::mpl::at_c<Item, 0>::type, ";
  ln "       boost::mpl::at_c<Item, 1>::type::value, ";
  ln "       S ";
  ln "     > ";
  ln "     {};";
  ln "";
  ln "  #include <boost/metaparse/foldr_start_with_parser.hpp>";
  ln "";
  ln "  using mult_exp3 = ";
  ln "   foldr_start_with_parser< ";
  ln "     sequence<int_token, one_of<times_token, divides_token>>, /* The parser applied repeatedly */ ";
  ln "     int_token, /* The parser parsing the last number */ ";
  ln "     boost::mpl::quote2<reverse_binary_op> /* The function called for every result */ ";
  ln "                                           /* of applying the above parser */ ";
  ln "   >;";
  ln "";
  ln "  using exp_parser17 = ";
  ln "   build_parser< ";
  ln "     foldl_start_with_parser< ";
  ln "       sequence<one_of<plus_token, minus_token>, mult_exp3>, ";
  ln "       mult_exp3, ";
  ln "       boost::mpl::quote2<binary_op> ";
  ln "     > ";
  ln "   >;";
  ln ""].

Definition pages : files := [
  (literal "before_10.qbk", concat pages_0);
  (literal "before_11.qbk", concat pages_1);
  (literal "before_11_1.qbk", concat pages_2);
  (literal "before_11_2.qbk", concat pages_3);
  (literal "before_11_3.qbk", concat pages_4);
  (literal "before_11_3_1.qbk", concat pages_5);
  (literal "before_11_3_2.qbk", concat pages_6);
  (literal "before_12.qbk", concat pages_7);
  (literal "before_3.qbk", concat pages_8);
  (literal "before_3_1.qbk", concat pages_9);
  (literal "before_3_2.qbk", concat pages_10);
  (literal "before_3_3.qbk", concat pages_11);
  (literal "before_4.qbk", concat pages_12);
  (literal "before_4_1.qbk", concat pages_13);
  (literal "before_4_2.qbk", concat pages_14);
  (literal "before_5.qbk", concat pages_15);
  (literal "before_5_1.qbk", concat pages_16);
  (literal "before_5_2.qbk", concat pages_17);
  (literal "before_5_2_1.qbk", concat pages_18);
  (literal "before_5_2_2.qbk", concat pages_19);
  (literal "before_5_2_3.qbk", concat pages_20);
  (literal "before_5_2_4.qbk", concat pages_21);
  (literal "before_6.qbk", concat pages_22);
  (literal "before_6_1.qbk", concat pages_23);
  (literal "before_6_2.qbk", concat pages_24);
  (literal "before_7.qbk", concat pages_25);
  (literal "before_7_1.qbk", concat pages_26);
  (literal "before_7_2.qbk", concat pages_27);
  (literal "before_8.qbk", concat pages_28);
  (literal "before_8_1.qbk", concat pages_29);
  (literal "before_8_2.qbk", concat pages_30);
  (literal "before_9.qbk", concat pages_31)].

(** doc/getting_started_0.qbk *)
Definition snippets_0 : list str := [
  ln "[#getting_started_0]";
  ln "";
  ln "  #include <boost/metaparse/build_parser.hpp>";
  ln "  using namespace boost::metaparse;";
  ln "  using exp_parser1 = build_parser<int_>;";
  ln ""].

(** doc/getting_started_1.qbk *)
Definition snippets_1 : list str := [
  ln "[#getting_started_1]";
  ln "";
  ln "  using int_token = token<int_>;";
  ln "  using plus_token = token<lit_c<'+'>>;";
  ln ""].

(** doc/getting_started_10.qbk *)
Definition snippets_2 : list str := [
  ln "[#getting_started_10]";
  ln "";
  ln "  boost::mpl::fold< boost::mpl::at_c<temp_result, 1>::type, /* The vector to summarise */ boost::mpl::int_<0>, /* The value to start the sum from */ boost::mpl::quote2<sum_items> /* The function to call in each iteration */ >::type";
  ln ""].

(** doc/getting_started_11.qbk *)
Definition snippets_3 : list str := [
  ln "[#getting_started_11]";
  ln "";
  ln "  using exp_parser8 = build_parser< sequence< int_token, /* parse the first <number> */ transform< repeated<sequence<plus_token, int_token>>, /* parse the ""+ <number>"" elements */ /* lambda expression summarising the ""+ <number>"" elements using fold */ boost::mpl::lambda< /* The folding expression we have just created */ boost::mpl::fold< boost::mpl::_1, /* the argument of the lambda expression, the result */ /* of the repeated<...> parser */ boost::mpl::int_<0>, boost::mpl::quote2<sum_items> > >::type > > >;";
  ln ""].

(** doc/getting_started_12.qbk *)
Definition snippets_4 : list str := [
  ln "[#getting_started_12]";
  ln "";
  ln "  using exp_parser9 = build_parser< transform< /* What we had so far */ sequence< int_token, transform< repeated<sequence<plus_token, int_token>>, boost::mpl::lambda< boost::mpl::fold< boost::mpl::_1, boost::mpl::int_<0>, boost::mpl::quote2<sum_items> > >::type > >, boost::mpl::quote1<sum_vector> /* summarise the vector of numbers */ > >;";
  ln ""].

(** doc/getting_started_13.qbk *)
Definition snippets_5 : list str := [
  ln "[#getting_started_13]";
  ln "";
  ln "  using exp_parser10 = build_parser< transform< sequence< int_token, foldl< sequence<plus_token, int_token>, boost::mpl::int_<0>, boost::mpl::quote2<sum_items> > >, boost::mpl::quote1<sum_vector>> >;";
  ln ""].

(** doc/getting_started_14.qbk *)
Definition snippets_6 : list str := [
  ln "[#getting_started_14]";
  ln "";
  ln "                                                    >";
  ln ""].

(** doc/getting_started_15.qbk *)
Definition snippets_7 : list str := [
  ln "[#getting_started_15]";
  ln "";
  ln "  using exp_parser11 = build_parser< foldl_start_with_parser< sequence<plus_token, int_token>, /* apply this parser repeatedly */ int_token, /* use this parser to get the initial value */ boost::mpl::quote2<sum_items> /* use this function to add a new value to the summary */ > >;";
  ln ""].

(** doc/getting_started_16.qbk *)
Definition snippets_8 : list str := [
  ln "[#getting_started_16]";
  ln "";
  ln "  using exp_parser12 = build_parser< foldl_start_with_parser< sequence<one_of<plus_token, minus_token>, int_token>, int_token, boost::mpl::quote2<sum_items> > >;";
  ln ""].

(** doc/getting_started_17.qbk *)
Definition snippets_9 : list str := [
  ln "[#getting_started_17]";
  ln "";
  ln "  template <class L, char Op, class R> struct eval_binary_op;";
  ln "  template <class L, class R> struct eval_binary_op<L, '+', R> : boost::mpl::plus<L, R>::type {};";
  ln "  template <class L, class R> struct eval_binary_op<L, '-', R> : boost::mpl::minus<L, R>::type {};";
  ln ""].

(** doc/getting_started_18.qbk *)
Definition snippets_10 : list str := [
  ln "[#getting_started_18]";
  ln "";
  ln "  eval_binary_op<boost::mpl::int_<11>, '+', boost::mpl::int_<2>>::type";
  ln "  eval_binary_op<boost::mpl::int_<13>, '-', boost::mpl::int_<2>>::type";
  ln ""].

(** doc/getting_started_19.qbk *)
Definition snippets_11 : list str := [
  ln "[#getting_started_19]";
  ln "";
  ln "  template <class S, class Item> struct binary_op : eval_binary_op< S, boost::mpl::at_c<Item, 0>::type::value, typename boost::mpl::at_c<Item, 1>::type > {};";
  ln ""].

(** doc/getting_started_2.qbk *)
Definition snippets_12 : list str := [
  ln "[#getting_started_2]";
  ln "";
  ln "  #include <boost/mpl/plus.hpp>";
  ln "  #include <boost/mpl/at.hpp>";
  ln "  template <class Vector> struct eval_plus : boost::mpl::plus< typename boost::mpl::at_c<Vector, 0>::type, typename boost::mpl::at_c<Vector, 2>::type > {};";
  ln ""].

(** doc/getting_started_20.qbk *)
Definition snippets_13 : list str := [
  ln "[#getting_started_20]";
  ln "";
  ln "  using exp_parser13 = build_parser< foldl_start_with_parser< sequence<one_of<plus_token, minus_token>, int_token>, int_token, boost::mpl::quote2<binary_op> > >;";
  ln ""].

(** doc/getting_started_21.qbk *)
Definition snippets_14 : list str := [
  ln "[#getting_started_21]";
  ln "";
  ln "  #include <boost/mpl/times.hpp>";
  ln "  template <class L, class R> struct eval_binary_op<L, '*', R> : boost::mpl::times<L, R>::type {};";
  ln ""].

(** doc/getting_started_22.qbk *)
Definition snippets_15 : list str := [
  ln "[#getting_started_22]";
  ln "";
  ln "  using exp_parser14 = build_parser< foldl_start_with_parser< sequence<one_of<plus_token, minus_token, times_token>, int_token>, int_token, boost::mpl::quote2<binary_op> > >;";
  ln ""].

(** doc/getting_started_23.qbk *)
Definition snippets_16 : list str := [
  ln "[#getting_started_23]";
  ln "";
  ln "  using exp_parser15 = build_parser< foldl_start_with_parser< sequence<one_of<plus_token, minus_token>, mult_exp1>, mult_exp1, boost::mpl::quote2<binary_op> > >;";
  ln ""].

(** doc/getting_started_24.qbk *)
Definition snippets_17 : list str := [
  ln "[#getting_started_24]";
  ln "";
  ln "  #include <boost/mpl/divides.hpp>";
  ln "  template <class L, class R> struct eval_binary_op<L, '/', R> : boost::mpl::divides<L, R>::type {};";
  ln "  using divides_token = token<lit_c<'/'>>;";
  ln "  using mult_exp2 = foldl_start_with_parser< sequence<one_of<times_token, divides_token>, int_token>, int_token, boost::mpl::quote2<binary_op> >;";
  ln "  using exp_parser16 = build_parser< foldl_start_with_parser< sequence<one_of<plus_token, minus_token>, mult_exp2>, mult_exp2, boost::mpl::quote2<binary_op> > >;";
  ln ""].

(** doc/getting_started_25.qbk *)
Definition snippets_18 : list str := [
  ln "[#getting_started_25]";
  ln "";
  ln "  template <class S, class Item> struct reverse_binary_op : eval_binary_op< typename boost::mpl::at_c<Item, 0>::type, boost::mpl::at_c<Item, 1>::type::value, S > {};";
  ln ""].

(** doc/getting_started_26.qbk *)
Definition snippets_19 : list str := [
  ln "[#getting_started_26]";
  ln "";
  ln "  using mult_exp3 = foldr_start_with_parser< sequence<int_token, one_of<times_token, divides_token>>, /* The parser applied repeatedly */ int_token, /* The parser parsing the last number */ boost::mpl::quote2<reverse_binary_op> /* The function called for every result */ /* of applying the above parser */ >;";
  ln ""].

(** doc/getting_started_27.qbk *)
Definition snippets_20 : list str := [
  ln "[#getting_started_27]";
  ln "";
  ln "  using exp_parser17 = build_parser< foldl_start_with_parser< sequence<one_of<plus_token, minus_token>, mult_exp3>, mult_exp3, boost::mpl::quote2<binary_op> > >;";
  ln ""].

(** doc/getting_started_28.qbk *)
Definition snippets_21 : list str := [
  ln "[#getting_started_28]";
  ln "";
  ln "  #include <boost/mpl/negate.hpp>";
  ln "  using unary_exp1 = foldr_start_with_parser< minus_token, int_token, boost::mpl::lambda<boost::mpl::negate<boost::mpl::_1>>::type >;";
  ln ""].

(** doc/getting_started_29.qbk *)
Definition snippets_22 : list str := [
  ln "[#getting_started_29]";
  ln "";
  ln "  using mult_exp4 = foldl_start_with_parser< sequence<one_of<times_token, divides_token>, unary_exp1>, unary_exp1, boost::mpl::quote2<binary_op> >;";
  ln "  using exp_parser18 = build_parser< foldl_start_with_parser< sequence<one_of<plus_token, minus_token>, mult_exp4>, mult_exp4, boost::mpl::quote2<binary_op> > >;";
  ln ""].

(** doc/getting_started_3.qbk *)
Definition snippets_23 : list str := [
  ln "[#getting_started_3]";
  ln "";
  ln "  eval_plus< boost::mpl::vector< mpl_::integral_c<int, 11>, mpl_::char_<'+'>, mpl_::integral_c<int, 2> >>::type";
  ln ""].

(** doc/getting_started_30.qbk *)
Definition snippets_24 : list str := [
  ln "[#getting_started_30]";
  ln "";
  ln "  exp_parser18::apply<BOOST_METAPARSE_STRING(""---13"")>::type";
  ln "  exp_parser18::apply<BOOST_METAPARSE_STRING(""13"")>::type";
  ln ""].

(** doc/getting_started_31.qbk *)
Definition snippets_25 : list str := [
  ln "[#getting_started_31]";
  ln "";
  ln "  using lparen_token = token<lit_c<'('>>;";
  ln "  using rparen_token = token<lit_c<')'>>;";
  ln ""].

(** doc/getting_started_32.qbk *)
Definition snippets_26 : list str := [
  ln "[#getting_started_32]";
  ln "";
  ln "  using plus_exp1 = foldl_start_with_parser< sequence<one_of<plus_token, minus_token>, mult_exp4>, mult_exp4, boost::mpl::quote2<binary_op> >;";
  ln ""].

(** doc/getting_started_33.qbk *)
Definition snippets_27 : list str := [
  ln "[#getting_started_33]";
  ln "";
  ln "  #include <boost/metaparse/middle_of.hpp>";
  ln "  using paren_exp2 = middle_of<lparen_token, plus_exp1, rparen_token>;";
  ln ""].

(** doc/getting_started_34.qbk *)
Definition snippets_28 : list str := [
  ln "[#getting_started_34]";
  ln "";
  ln "  using paren_exp3 = middle_of<lparen_token, plus_exp2, rparen_token>;";
  ln "  using primary_exp2 = one_of<int_token, paren_exp2>;";
  ln "  using unary_exp2 = foldr_start_with_parser< minus_token, primary_exp2, boost::mpl::lambda<boost::mpl::negate<boost::mpl::_1>>::type >;";
  ln "  using mult_exp5 = foldl_start_with_parser< sequence<one_of<times_token, divides_token>, unary_exp2>, unary_exp2, boost::mpl::quote2<binary_op> >;";
  ln ""].

(** doc/getting_started_35.qbk *)
Definition snippets_29 : list str := [
  ln "[#getting_started_35]";
  ln "";
  ln "  struct plus_exp2 : foldl_start_with_parser< sequence<one_of<plus_token, minus_token>, mult_exp5>, mult_exp5, boost::mpl::quote2<binary_op> > {};";
  ln ""].

(** doc/getting_started_36.qbk *)
Definition snippets_30 : list str := [
  ln "[#getting_started_36]";
  ln "";
  ln "  struct plus_exp3;";
  ln "  using paren_exp4 = middle_of<lparen_token, plus_exp3, rparen_token>;";
  ln ""].

(** doc/getting_started_37.qbk *)
Definition snippets_31 : list str := [
  ln "[#getting_started_37]";
  ln "";
  ln "  using unary_exp3 = foldr_start_with_parser< minus_token, primary_exp3, boost::mpl::lambda<boost::mpl::negate<boost::mpl::_1>>::type >;";
  ln "  using mult_exp6 = foldl_start_with_parser< sequence<one_of<times_token, divides_token>, unary_exp3>, unary_exp3, boost::mpl::quote2<binary_op> >;";
  ln "  struct plus_exp3 : foldl_start_with_parser< sequence<one_of<plus_token, minus_token>, mult_exp6>, mult_exp6, boost::mpl::quote2<binary_op> > {};";
  ln "  using exp_parser20 = build_parser<plus_exp3>;";
  ln ""].

(** doc/getting_started_38.qbk *)
Definition snippets_32 : list str := [
  ln "[#getting_started_38]";
  ln "";
  ln "  #include <boost/metaparse/fail_at_first_char_expected.hpp>";
  ln "  #include <boost/metaparse/first_of.hpp>";
  ln "  struct plus_exp4 : first_of< foldl_start_with_parser< sequence<one_of<plus_token, minus_token>, mult_exp6>, mult_exp6, boost::mpl::quote2<binary_op> >, fail_at_first_char_expected< sequence<one_of<plus_token, minus_token>, mult_exp6> > > {};";
  ln "  using exp_parser21 = build_parser<plus_exp4>;";
  ln ""].

(** doc/getting_started_39.qbk *)
Definition snippets_33 : list str := [
  ln "[#getting_started_39]";
  ln "";
  ln "  #include <boost/metaparse/foldl_reject_incomplete_start_with_parser.hpp>";
  ln "  struct plus_exp5 : foldl_reject_incomplete_start_with_parser< sequence<one_of<plus_token, minus_token>, mult_exp6>, mult_exp6, boost::mpl::quote2<binary_op> > {};";
  ln "  using exp_parser22 = build_parser<plus_exp5>;";
  ln ""].

(** doc/getting_started_4.qbk *)
Definition snippets_34 : list str := [
  ln "[#getting_started_4]";
  ln "";
  ln "  #include <boost/mpl/quote.hpp>";
  ln "  using exp_parser6 = build_parser< transform< sequence<int_token, plus_token, int_token>, boost::mpl::quote1<eval_plus> > >;";
  ln ""].

(** doc/getting_started_40.qbk *)
Definition snippets_35 : list str := [
  ln "[#getting_started_40]";
  ln "";
  ln "  struct plus_exp6;";
  ln "  using paren_exp5 = middle_of<lparen_token, plus_exp6, rparen_token>;";
  ln "  using primary_exp4 = one_of<int_token, paren_exp5, fail<missing_primary_expression>>;";
  ln "  using unary_exp4 = foldr_start_with_parser< minus_token, primary_exp4, boost::mpl::lambda<boost::mpl::negate<boost::mpl::_1>>::type >;";
  ln "  using mult_exp7 = foldl_reject_incomplete_start_with_parser< sequence<one_of<times_token, divides_token>, unary_exp4>, unary_exp4, boost::mpl::quote2<binary_op> >;";
  ln "  struct plus_exp6 : foldl_reject_incomplete_start_with_parser< sequence<one_of<plus_token, minus_token>, mult_exp7>, mult_exp7, boost::mpl::quote2<binary_op> > {};";
  ln "  using exp_parser23 = build_parser<plus_exp6>;";
  ln ""].

(** doc/getting_started_5.qbk *)
Definition snippets_36 : list str := [
  ln "[#getting_started_5]";
  ln "";
  ln "  using exp_parser7 = build_parser< sequence< int_token,                                /* The first <number> */ repeated<sequence<plus_token, int_token>> /* The ""+ <number>"" elements */ > >;";
  ln ""].

(** doc/getting_started_6.qbk *)
Definition snippets_37 : list str := [
  ln "[#getting_started_6]";
  ln "";
  ln "  using vector_of_numbers = boost::mpl::vector< boost::mpl::int_<2>, boost::mpl::int_<5>, boost::mpl::int_<6> >;";
  ln ""].

(** doc/getting_started_7.qbk *)
Definition snippets_38 : list str := [
  ln "[#getting_started_7]";
  ln "";
  ln "  template <class Vector> struct sum_vector : boost::mpl::fold< Vector, boost::mpl::int_<0>, boost::mpl::lambda< boost::mpl::plus<boost::mpl::_1, boost::mpl::_2> >::type > {};";
  ln ""].

(** doc/getting_started_8.qbk *)
Definition snippets_39 : list str := [
  ln "[#getting_started_8]";
  ln "";
  ln "  template <class Sum, class Item> struct sum_items : boost::mpl::plus< Sum, typename boost::mpl::at_c<Item, 1>::type > {};";
  ln ""].

(** doc/getting_started_9.qbk *)
Definition snippets_40 : list str := [
  ln "[#getting_started_9]";
  ln "";
  ln "  sum_items< mpl_::integral_c<int, 1>, boost::mpl::vector<mpl_::char_<'+'>, mpl_::integral_c<int, 2>> >::type";
  ln ""].

Definition snippets : files := [
  (literal "getting_started_0.qbk", concat snippets_0);
  (literal "getting_started_1.qbk", concat snippets_1);
  (literal "getting_started_10.qbk", concat snippets_2);
  (literal "getting_started_11.qbk", concat snippets_3);
  (literal "getting_started_12.qbk", concat snippets_4);
  (literal "getting_started_13.qbk", concat snippets_5);
  (literal "getting_started_14.qbk", concat snippets_6);
  (literal "getting_started_15.qbk", concat snippets_7);
  (literal "getting_started_16.qbk", concat snippets_8);
  (literal "getting_started_17.qbk", concat snippets_9);
  (literal "getting_started_18.qbk", concat snippets_10);
  (literal "getting_started_19.qbk", concat snippets_11);
  (literal "getting_started_2.qbk", concat snippets_12);
  (literal "getting_started_20.qbk", concat snippets_13);
  (literal "getting_started_21.qbk", concat snippets_14);
  (literal "getting_started_22.qbk", concat snippets_15);
  (literal "getting_started_23.qbk", concat snippets_16);
  (literal "getting_started_24.qbk", concat snippets_17);
  (literal "getting_started_25.qbk", concat snippets_18);
  (literal "getting_started_26.qbk", concat snippets_19);
  (literal "getting_started_27.qbk", concat snippets_20);
  (literal "getting_started_28.qbk", concat snippets_21);
  (literal "getting_started_29.qbk", concat snippets_22);
  (literal "getting_started_3.qbk", concat snippets_23);
  (literal "getting_started_30.qbk", concat snippets_24);
  (literal "getting_started_31.qbk", concat snippets_25);
  (literal "getting_started_32.qbk", concat snippets_26);
  (literal "getting_started_33.qbk", concat snippets_27);
  (literal "getting_started_34.qbk", concat snippets_28);
  (literal "getting_started_35.qbk", concat snippets_29);
  (literal "getting_started_36.qbk", concat snippets_30);
  (literal "getting_started_37.qbk", concat snippets_31);
  (literal "getting_started_38.qbk", concat snippets_32);
  (literal "getting_started_39.qbk", concat snippets_33);
  (literal "getting_started_4.qbk", concat snippets_34);
  (literal "getting_started_40.qbk", concat snippets_35);
  (literal "getting_started_5.qbk", concat snippets_36);
  (literal "getting_started_6.qbk", concat snippets_37);
  (literal "getting_started_7.qbk", concat snippets_38);
  (literal "getting_started_8.qbk", concat snippets_39);
  (literal "getting_started_9.qbk", concat snippets_40)].

(** The same files, in any order. *)
Definition same_files (a b : files) : bool :=
  Nat.eqb (List.length a) (List.length b)
  && forallb (fun f => match get_file (fst f) b with
                       | Some c => str_eqb c (snd f)
                       | None => false
                       end) a.

Example guide_generated :
  match generate_all guide (literal "getting_started") with
  | Some (files1, files2, files3, qbk) =>
      same_files headers files1 && same_files pages files2 && same_files snippets files3
      && str_eqb (concat qbk) (concat guide)
      && Nat.eqb (List.length qbk) (List.length guide)
  | None => false
  end = true.
Proof. vm_compute. reflexivity. Qed.

(** ** The guide of this commit is one of the guides of C71 *)

(** Its parts *)
Definition body (l : str) : str := removelast l.
Fixpoint read_pieces (fuel : nat) (l : str) (ls : list str) : command * list str :=
  match fuel, ls with
  | S fuel', m :: ls' =>
      if ends_with 92 l
      then let (c, rest) := read_pieces fuel' (skipn 7 (body m)) ls' in
           ((removelast l, fst c :: snd c), rest)
      else ((l, []), ls)
  | _, _ => ((l, []), ls)
  end.
Fixpoint read_items (fuel : nat) (ls : list str) : list item * list str :=
  match fuel, ls with
  | S fuel', m :: ls' =>
      if begins (text "  > ") m
      then let (c, rest) := read_pieces fuel' (skipn 4 (body m)) ls' in
           let (is, rest') := read_items fuel' rest in (Command c :: is, rest')
      else if begins (text "  ") m
      then let (is, rest) := read_items fuel' ls' in (Answer (skipn 2 (body m)) :: is, rest)
      else ([], ls)
  | _, _ => ([], ls)
  end.
Fixpoint read_listing (ls : list str) : list str * list str :=
  match ls with
  | m :: ls' =>
      if begins (text "  ") m
      then let (l, rest) := read_listing ls' in (skipn 2 (body m) :: l, rest)
      else ([], ls)
  | [] => ([], [])
  end.
(** The number at the beginning of [s], [k]: its last component so far *)
Fixpoint read_number (k : Z) (s : str) : list Z * str :=
  match s with
  | c :: s' =>
      if (48 <=? c) && (c <=? 57) then read_number (10 * k + (c - 48)) s'
      else match s' with
           | d :: s2 =>
               if (48 <=? d) && (d <=? 57)
               then let (n, rest) := read_number (d - 48) s2 in (k :: n, rest)
               else ([k], s2)
           | [] => ([k], [])
           end
  | [] => ([k], [])
  end.
Fixpoint read (fuel : nat) (ls : list str) : list block :=
  match fuel, ls with
  | S fuel', m :: ls' =>
      if begins (text "  > ") m then
        match read_items fuel ls with
        | (Command c :: is, rest) => Session c is :: read fuel' rest
        | _ => []
        end
      else if begins (text "  ") m then
        match read_listing ls with
        | (l :: ls2, rest) => Listing l ls2 :: read fuel' rest
        | _ => []
        end
      else if unnumbered m then Prose (body m) :: read fuel' ls'
      else let (n, title) := read_number 0 (skipn 9 (body m)) in
           Heading n title :: read fuel' ls'
  | _, _ => []
  end.
Definition tutorial : list block := Eval vm_compute in read (List.length guide) guide.

Fixpoint earlierb (a b : list Z) : bool :=
  match a, b with
  | _, [] => false
  | [], _ :: _ => true
  | x :: a', y :: b' => (x <? y) || ((x =? y) && earlierb a' b')
  end.
Lemma earlierb_spec a b : earlierb a b = true -> earlier a b.
Proof.
  revert b. induction a as [|x a IH]; intros [|y b] H; try discriminate H.
  - constructor.
  - cbn in H. apply orb_true_iff in H as [H|H].
    + apply earlier_head. apply Z.ltb_lt. exact H.
    + apply andb_true_iff in H as (E & H). apply Z.eqb_eq in E. subst y.
      apply earlier_tail. auto.
Qed.
Fixpoint ordered (ns : list (list Z)) : bool :=
  match ns with
  | [] => true
  | n :: ns' => forallb (earlierb n) ns' && ordered ns'
  end.
Lemma ordered_spec ns : ordered ns = true -> in_order ns.
Proof.
  induction ns as [|n ns IH]; intros H; [constructor|].
  cbn in H. apply andb_true_iff in H as (A & B). constructor; [|auto].
  apply Forall_forall. intros m M. apply earlierb_spec.
  rewrite forallb_forall in A. auto.
Qed.

Example tutorial_text : guide_lines tutorial = guide.
Proof. vm_compute. reflexivity. Qed.
Example tutorial_good : good_guide tutorial.
Proof. split; vm_compute; reflexivity. Qed.
Example tutorial_in_order : in_order (numbers tutorial).
Proof. apply ordered_spec. vm_compute. reflexivity. Qed.
Example tutorial_plain : forallb plain_definition (commands tutorial) = true.
Proof. vm_compute. reflexivity. Qed.
Example tutorial_finished : forallb finished (commands tutorial) = true.
Proof. vm_compute. reflexivity. Qed.
Example tutorial_sections : List.length (numbers tutorial) = List.length headers.
Proof. vm_compute. reflexivity. Qed.

(** So including a header of the tutorial gives what the guide says before its section. *)
Example tutorial_headers : exists sections defs,
  parse_md guide = Some (sections, defs)
  /\ forall before n title after D, tutorial = before ++ Heading n title :: after ->
     (forall k, In k (numbers tutorial) -> ~ In (guard k) D) ->
     exists t D', In (header_file n, t) (gen_headers sections defs)
       /\ preprocess (gen_headers sections defs) D (source_lines t) D'
            (source_of (in_metashell D) (commands before)).
Proof.
  destruct (C71_headers tutorial tutorial_good tutorial_in_order tutorial_plain)
    as (ss & ds & E & _ & _ & H).
  rewrite tutorial_text in E. exists ss, ds. split; [exact E|].
  intros before n title after D B N. destruct (H before n title after D B N) as (t & D' & I & X & _).
  exists t, D'. auto.
Qed.
