(** tools/string_headers.py, the generator of cpp11/impl/string.hpp: the text it
    writes.

    [None]: Python raises an exception.  Not modelled: the command line, the names of
    the files (string_headers.py:118-124, 278-346). *)

From Coq Require Import String.
From Coq Require Import ZArith List Bool.
From Verif Require Import Base Messages Strings Generate.
Import ListNotations.
Open Scope Z_scope.

(** [a * n] for a string *)
Fixpoint times (n : nat) (s : str) : str :=
  match n with
  | O => []
  | S n' => s ++ times n' s
  end.

(** [str(n)] and [s.zfill(n)] *)
Definition py_str (n : Z) : str := print_int n.
Definition zfill (n : nat) (s : str) : str := times (n - length s) [48] ++ s.

(** ** Parts of the file *)

(** [VERSION], string_headers.py:14 *)
Definition version : Z := 1.

(** [Namespace.prefix], string_headers.py:37-42 *)
Definition ns_prefix (depth : nat) : str := times depth (literal "  ").

(** [Namespace.begin], string_headers.py:24-30 *)
Fixpoint ns_open (depth : nat) (names : list str) : str :=
  match names with
  | [] => []
  | name :: names' =>
      ns_prefix depth ++ literal "namespace " ++ name ++ nl
      ++ ns_prefix depth ++ literal "{" ++ nl
      ++ ns_open (S depth) names'
  end.
Definition ns_begin (names : list str) : str := nl ++ ns_open 0 names.

(** [Namespace.end], string_headers.py:32-35 *)
Definition ns_end (names : list str) : str :=
  concat (map (fun depth => ns_prefix depth ++ literal "}" ++ nl)
            (rev (seq 0 (length names)))).

(** [write_autogen_info], string_headers.py:53-60 *)
Definition autogen_info : str :=
  nl
  ++ literal "// This is an automatically generated header file." ++ nl
  ++ literal "// Generated with the tools/string_headers.py utility of" ++ nl
  ++ literal "// Boost.Metaparse" ++ nl.

(** [IncludeGuard.begin], [IncludeGuard.end], string_headers.py:69-77 *)
Definition guard_name : str := literal "BOOST_METAPARSE_V1_CPP11_IMPL_STRING_HPP".
Definition guard_begin : str :=
  literal "#ifndef " ++ guard_name ++ nl ++ literal "#define " ++ guard_name ++ nl
  ++ autogen_info.
Definition guard_end : str := nl ++ literal "#endif" ++ nl.

(** [macro_name], string_headers.py:87-89 *)
Definition macro_name (name : str) : str :=
  literal "BOOST_METAPARSE_V" ++ py_str version ++ literal "_" ++ name.

(** [define_macro] with [undefine=False] and [check=True],
    string_headers.py:92-115 *)
Definition define_macro (name : str) (args : list str) (body : str) : str :=
  let arg_list :=
    match args with
    | [] => []
    | _ => literal "(" ++ join (literal ", ") args ++ literal ")"
    end in
  literal "#ifdef " ++ macro_name name ++ nl
  ++ literal "#  error " ++ macro_name name ++ literal " already defined." ++ nl
  ++ literal "#endif" ++ nl
  ++ literal "#define " ++ macro_name name ++ arg_list ++ literal " " ++ body ++ nl.

(** [length_limits], string_headers.py:127-137 *)
Definition limit_texts (max_length_limit length_limit_step : Z) : list str :=
  map (fun i => zfill (length (py_str max_length_limit)) (py_str i))
    (xrange length_limit_step (max_length_limit + length_limit_step - 1)
       length_limit_step).

(** [unique_names], string_headers.py:140-142 *)
Definition unique_names (count : Z) : list str :=
  map (fun i => literal "C" ++ py_str i) (xrange 0 count 1).

(** [generate_take], string_headers.py:145-157 *)
Definition take_text (steps : list Z) (line_prefix : str) : str :=
  line_prefix ++ literal "constexpr inline int take(int n_)" ++ nl
  ++ line_prefix ++ literal "{" ++ nl
  ++ line_prefix ++ literal "  return "
  ++ concat (map (fun s => literal "n_ >= " ++ py_str s ++ literal " ? " ++ py_str s
                           ++ literal " : (") steps)
  ++ literal " 0 " ++ times (length steps) (literal ")") ++ literal ";" ++ nl
  ++ line_prefix ++ literal "}" ++ nl
  ++ nl.

(** A specialisation of [make_string], string_headers.py:182-196 *)
Definition specialisation_text (prefix : str) (i : Z) : str :=
  prefix ++ literal "template <int LenRemaining,"
  ++ concat (map (fun n => literal "char " ++ n ++ literal ",") (unique_names i))
  ++ literal "char... Cs>"
  ++ literal " struct make_string<" ++ py_str i ++ literal ",LenRemaining,"
  ++ concat (map (fun n => n ++ literal ",") (unique_names i))
  ++ literal "Cs...> :"
  ++ literal " concat<string<" ++ join (literal ",") (unique_names i) ++ literal ">,"
  ++ literal " typename make_string<take(LenRemaining),"
  ++ literal "LenRemaining-take(LenRemaining),Cs...>::type> {};" ++ nl.

(** The loop over them, string_headers.py:177-199 *)
Fixpoint specialisations_text (prefix : str) (disable_sun : bool) (steps : list Z) : str :=
  match steps with
  | [] => if disable_sun then literal "#endif" ++ nl else []
  | i :: steps' =>
      if (64 <? i) && negb disable_sun then
        literal "#ifndef __SUNPRO_CC" ++ nl ++ specialisation_text prefix i
        ++ specialisations_text prefix true steps'
      else
        specialisation_text prefix i ++ specialisations_text prefix disable_sun steps'
  end.

(** [2 ** n for n in xrange(int(math.log(max_step, 2)), -1, -1)],
    string_headers.py:162 *)
Definition powers (max_step : Z) : list Z :=
  map (fun n => 2 ^ n) (rev (xrange 0 (Z.log2 max_step + 1) 1)).

(** [generate_make_string], string_headers.py:160-199 *)
Definition make_string_text (max_step : Z) : str :=
  let steps := powers max_step in
  let names := [literal "boost"; literal "metaparse"; literal "v" ++ py_str version;
                literal "impl"] in
  let prefix := ns_prefix (length names) in
  ns_begin names
  ++ take_text steps prefix
  ++ prefix ++ literal "template <int LenNow, int LenRemaining, char... Cs>" ++ nl
  ++ prefix ++ literal "struct make_string;" ++ nl
  ++ nl
  ++ prefix ++ literal "template <char... Cs>"
  ++ literal " struct make_string<0, 0, Cs...> : string<> {};" ++ nl
  ++ specialisations_text prefix false (rev steps)
  ++ ns_end names.

(** ** The macros *)

Definition ints (limits : list str) : option (list Z) := ints_of limits.

(** The macro [STRING], string_headers.py:232-244 *)
Definition string_macro : str :=
  let impl := literal "::boost::metaparse::v" ++ py_str version ++ literal "::impl" in
  define_macro (literal "STRING") [literal "s"]
    (impl ++ literal "::make_string< "
     ++ impl ++ literal "::take(sizeof(s)-1), sizeof(s)-1-" ++ impl
     ++ literal "::take(sizeof(s)-1),"
     ++ literal "BOOST_PP_CAT(" ++ macro_name (literal "I")
     ++ literal ", BOOST_METAPARSE_LIMIT_STRING_SIZE)(s)"
     ++ literal ">::type").

(** The macro [I<limit>], string_headers.py:248-255 *)
Definition index_macro_text (limits : list Z) (limit : Z) : option str :=
  match py_min (filter (fun l => limit <=? l) limits) with
  | None => None
  | Some l =>
      Some (literal "#define " ++ macro_name (literal "I" ++ py_str limit) ++ literal " "
            ++ macro_name (literal "INDEX_STR" ++ py_str l) ++ nl)
  end.

(** The macros [INDEX_STR<n>], string_headers.py:258-275.  [prev_macro]: empty for
    [None] *)
Fixpoint index_strs_text (prev_macro : str) (prev_limit : Z) (limits : list Z) : str :=
  match limits with
  | [] => []
  | length_limit :: limits' =>
      let this_macro := macro_name (literal "INDEX_STR" ++ py_str length_limit) in
      literal "#define " ++ this_macro ++ literal "(s) "
      ++ match prev_macro with
         | [] => []
         | _ => prev_macro ++ literal "(s),"
         end
      ++ join (literal ",")
           (map (fun i => macro_name (literal "STRING_AT") ++ literal "((s), "
                          ++ py_str i ++ literal ")")
              (xrange prev_limit length_limit 1))
      ++ nl
      ++ index_strs_text this_macro length_limit limits'
  end.

(** ** [generate_string], string_headers.py:202-275 *)
Definition generate_string (limits : list str) : option str :=
  match ints limits with
  | None => None
  | Some limits =>
      match py_max limits with
      | None => None
      | Some max_limit =>
          match all_some (map (index_macro_text limits) (xrange 0 (max_limit + 1) 1)) with
          | None => None
          | Some index_macros =>
              Some (guard_begin
                ++ nl
                ++ literal "#include <boost/metaparse/v" ++ py_str version
                ++ literal "/cpp11/impl/concat.hpp>" ++ nl
                ++ literal "#include <boost/preprocessor/cat.hpp>" ++ nl
                ++ make_string_text 512
                ++ nl
                ++ literal "#ifndef BOOST_METAPARSE_LIMIT_STRING_SIZE" ++ nl
                ++ literal "#  error BOOST_METAPARSE_LIMIT_STRING_SIZE not defined" ++ nl
                ++ literal "#endif" ++ nl
                ++ nl
                ++ literal "#if BOOST_METAPARSE_LIMIT_STRING_SIZE > " ++ py_str max_limit ++ nl
                ++ literal "#  error BOOST_METAPARSE_LIMIT_STRING_SIZE is greater than"
                ++ literal " " ++ py_str max_limit
                ++ literal ". To increase the limit run tools/string_headers.py of"
                ++ literal " Boost.Metaparse against your Boost headers." ++ nl
                ++ literal "#endif" ++ nl
                ++ nl
                ++ string_macro
                ++ nl
                ++ concat index_macros
                ++ nl
                ++ index_strs_text [] 0 limits
                ++ guard_end)
          end
      end
  end.

(** [main] for the command line arguments, string_headers.py:334-343 *)
Definition string_header (max_length_limit length_limit_step : Z) : option str :=
  generate_string (limit_texts max_length_limit length_limit_step).
