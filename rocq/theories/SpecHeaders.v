(** Specification vocabulary for the generated header of strings: a preprocessor with
    macros and what the templates of the header say.  Nothing of Headers.v or Strings.v
    is used. *)

From Coq Require Import ZArith List Bool.
From Verif Require Import Base Messages Spec SpecGenerate.
Import ListNotations.
Open Scope Z_scope.

(** ** Tokens *)

Definition word_char (c : char) : bool :=
  ((48 <=? c) && (c <=? 57)) || ((65 <=? c) && (c <=? 90)) || ((97 <=? c) && (c <=? 122))
  || (c =? 95).

(** The tokens of a text: words (also numbers) and other characters that are not
    whitespace. *)
Fixpoint tokens (s : str) : list str :=
  match s with
  | [] => []
  | c :: s' =>
      if word_char c then
        match tokens s' with
        | w :: ts =>
            if match s' with d :: _ => word_char d | [] => false end
            then (c :: w) :: ts else [c] :: w :: ts
        | [] => [[c]]
        end
      else if white c then tokens s'
      else [c] :: tokens s'
  end.

Definition word (w : str) : bool :=
  match w with
  | [] => false
  | _ => forallb word_char w
  end.

(** ** Macros *)

(** A macro; without parameters: [None] *)
Record macro : Type := Macro {
  macro_id : str;
  parameters : option (list str);
  replacement : list str
}.
Definition defined (ms : list macro) (x : str) : Prop := In x (map macro_id ms).

(** The line that defines a macro *)
Inductive definition : str -> macro -> Prop :=
| def_empty x : word x = true -> definition (text "#define " ++ x) (Macro x None [])
| def_object x body : word x = true ->
    definition (text "#define " ++ x ++ text " " ++ body) (Macro x None (tokens body))
| def_function x ps body : word x = true -> forallb word ps = true ->
    definition (text "#define " ++ x ++ text "(" ++ separated (text ", ") ps ++ text ") " ++ body)
      (Macro x (Some ps) (tokens body)).

(** *** Directives *)

(** The meaning of the line that begins a conditional part *)
Inductive condition (ms : list macro) : str -> bool -> Prop :=
| cond_ifdef x : defined ms x -> condition ms (text "#ifdef " ++ x) true
| cond_ifdef_not x : ~ defined ms x -> condition ms (text "#ifdef " ++ x) false
| cond_ifndef x : ~ defined ms x -> condition ms (text "#ifndef " ++ x) true
| cond_ifndef_not x : defined ms x -> condition ms (text "#ifndef " ++ x) false
| cond_if_greater x n k : In (Macro x None [print_number n]) ms ->
    condition ms (text "#if " ++ x ++ text " > " ++ print_number k) (k <? n).

(** Lines without unclosed conditional parts *)
Definition opens (l : str) : bool :=
  begins (text "#ifdef ") l || begins (text "#ifndef ") l || begins (text "#if ") l.
Inductive closed : list str -> Prop :=
| closed_nil : closed []
| closed_line l ls : opens l = false -> begins (text "#endif") l = false -> closed ls ->
    closed (l :: ls)
| closed_part l body ls : opens l = true -> closed body -> closed ls ->
    closed (l :: body ++ text "#endif" :: ls).

(** The outcome: the macros and the lines left for the compiler, or an error *)
Inductive outcome : Type :=
| Finished (ms : list macro) (ls : list str)
| Stopped (message : str).
Definition with_line (l : str) (o : outcome) : outcome :=
  match o with
  | Finished ms ls => Finished ms (l :: ls)
  | Stopped m => Stopped m
  end.

(** Lines read with the macros [ms] defined.  Macros are not defined twice. *)
Inductive scan : list macro -> list str -> outcome -> Prop :=
| scan_end ms : scan ms [] (Finished ms [])
| scan_line ms l ls o : begins (text "#") l = false -> scan ms ls o ->
    scan ms (l :: ls) (with_line l o)
| scan_include ms l ls o : begins (text "#include <") l = true -> scan ms ls o ->
    scan ms (l :: ls) o
| scan_define ms l m ls o : definition l m -> ~ defined ms (macro_id m) ->
    scan (ms ++ [m]) ls o -> scan ms (l :: ls) o
| scan_error ms message ls : scan ms ((text "#  error " ++ message) :: ls) (Stopped message)
| scan_taken ms l body ls o : condition ms l true -> closed body ->
    scan ms (body ++ ls) o -> scan ms (l :: body ++ text "#endif" :: ls) o
| scan_skipped ms l body ls o : condition ms l false -> closed body ->
    scan ms ls o -> scan ms (l :: body ++ text "#endif" :: ls) o.

(** *** Expansion *)

Definition lparen : str := text "(".
Definition rparen : str := text ")".
Definition comma : str := text ",".

(** Tokens with matching brackets, and without commas outside brackets *)
Inductive bracketed : list str -> Prop :=
| bracketed_nil : bracketed []
| bracketed_token t ts : t <> lparen -> t <> rparen -> bracketed ts -> bracketed (t :: ts)
| bracketed_part a ts : bracketed a -> bracketed ts ->
    bracketed (lparen :: a ++ rparen :: ts).
Inductive argument : list str -> Prop :=
| argument_nil : argument []
| argument_token t ts : t <> lparen -> t <> rparen -> t <> comma -> argument ts ->
    argument (t :: ts)
| argument_part a ts : bracketed a -> argument ts -> argument (lparen :: a ++ rparen :: ts).

(** [a, b, c] *)
Fixpoint comma_separated (args : list (list str)) : list str :=
  match args with
  | [] => []
  | [a] => a
  | a :: args' => a ++ comma :: comma_separated args'
  end.

(** The tokens for the parameter [t], or itself *)
Fixpoint argument_for (ps : list str) (args : list (list str)) (t : str) : list str :=
  match ps, args with
  | p :: ps', a :: args' =>
      if list_eq_dec Z.eq_dec p t then a else argument_for ps' args' t
  | _, _ => [t]
  end.

(** The macro of Boost.Preprocessor that makes one token out of two *)
Definition cat : str := text "BOOST_PP_CAT".

Inductive expands (ms : list macro) : list str -> list str -> Prop :=
| exp_nil : expands ms [] []
| exp_token t ts out : ~ defined ms t -> t <> cat -> expands ms ts out ->
    expands ms (t :: ts) (t :: out)
| exp_object x body ts out : In (Macro x None body) ms -> expands ms (body ++ ts) out ->
    expands ms (x :: ts) out
| exp_function x ps body args args' ts out : In (Macro x (Some ps) body) ms ->
    length ps = length args -> ps <> [] -> Forall argument args ->
    Forall2 (expands ms) args args' ->
    expands ms (concat (map (argument_for ps args') body) ++ ts) out ->
    expands ms (x :: lparen :: comma_separated args ++ rparen :: ts) out
| exp_cat a b x y ts out : argument a -> argument b ->
    expands ms a [x] -> expands ms b [y] ->
    expands ms ((x ++ y) :: ts) out ->
    expands ms (cat :: lparen :: a ++ comma :: b ++ rparen :: ts) out.

(** ** The templates *)

(** The expression in the body of [take]: [n_ >= a ? b : ( e )] and [0].  The tokens,
    the argument, the value *)
Inductive chooses : list str -> Z -> Z -> Prop :=
| chooses_zero n : chooses [text "0"] n 0
| chooses_first a b e n : a <= n ->
    chooses ([text "n_"; text ">"; text "="; print_number a; text "?"; print_number b; text ":";
              lparen] ++ e ++ [rparen]) n b
| chooses_other a b e n v : n < a -> chooses e n v ->
    chooses ([text "n_"; text ">"; text "="; print_number a; text "?"; print_number b; text ":";
              lparen] ++ e ++ [rparen]) n v.

(** The definition of [take] in the lines [ls] *)
Definition takes (ls : list str) (n v : Z) : Prop :=
  exists u w head body e,
    ls = u ++ head :: text "{" :: body :: text "}" :: w
    /\ tokens head = tokens (text "constexpr inline int take(int n_)")
    /\ tokens body = text "return" :: e ++ [text ";"] /\ chooses e n v.

(** The definition of [make_string] in the lines [ls] *)
Definition primary (ls : list str) : Prop :=
  exists u w a b, ls = u ++ a :: b :: w
    /\ tokens (a ++ text " " ++ b)
       = tokens (text "template <int LenNow, int LenRemaining, char... Cs> struct make_string;").

(** The specialisation for nothing *)
Definition for_nothing (ls : list str) : Prop :=
  exists l, In l ls
    /\ tokens l = tokens (text "template <char... Cs> struct make_string<0, 0, Cs...> : string<> {};").

(** The specialisation for [k] characters: there are [k] different names of parameters
    [x] (here [A], [B]):
<<
template <int LenRemaining, char A, char B, char... Cs>
struct make_string<2, LenRemaining, A, B, Cs...> :
  concat<
    string<A, B>,
    typename make_string<take(LenRemaining), LenRemaining-take(LenRemaining), Cs...>::type
  >
{};
>>
*)
Definition for_characters (ls : list str) (k : Z) : Prop :=
  exists l xs, In l ls
    /\ forallb word xs = true
    /\ NoDup (text "LenRemaining" :: text "Cs" :: xs) /\ Z.of_nat (length xs) = k
    /\ tokens l =
       tokens (text "template <int LenRemaining,")
       ++ concat (map (fun x => [text "char"; x; comma]) xs)
       ++ tokens (text "char... Cs> struct make_string<") ++ [print_number k; comma]
       ++ tokens (text "LenRemaining,")
       ++ concat (map (fun x => [x; comma]) xs)
       ++ tokens (text "Cs...> : concat<string<")
       ++ comma_separated (map (fun x => [x]) xs)
       ++ tokens (text ">, typename make_string<take(LenRemaining),LenRemaining-take(LenRemaining),Cs...>::type> {};").

(** [make_string<now, remaining, cs...>::type] is [string<out...>]. *)
Inductive makes (ls : list str) : Z -> Z -> str -> str -> Prop :=
| makes_nothing cs : primary ls -> for_nothing ls -> makes ls 0 0 cs []
| makes_characters remaining now a cs out : primary ls ->
    for_characters ls (Z.of_nat (length a)) -> takes ls remaining now ->
    makes ls now (remaining - now) cs out ->
    makes ls (Z.of_nat (length a)) remaining (a ++ cs) (a ++ out).

(** ** Strings *)

(** The macro [BOOST_METAPARSE_V1_STRING_AT], cpp11/impl/string_at.hpp:33-36 *)
Definition limit_macro : str := text "BOOST_METAPARSE_LIMIT_STRING_SIZE".
Definition string_at_macro : macro :=
  Macro (text "BOOST_METAPARSE_V1_STRING_AT") None
    (tokens (text "::boost::metaparse::v1::impl::string_at<BOOST_METAPARSE_LIMIT_STRING_SIZE>")).
(** The macros defined before the header is included: the limit [n], and on Sun's
    compiler the one that tells so *)
Definition macros_before (sun : bool) (n : Z) : list macro :=
  Macro limit_macro None [print_number n] :: string_at_macro
  :: (if sun then [Macro (text "__SUNPRO_CC") None [text "0x5150"]] else []).

(** [make_string<take(sizeof(x)-1), sizeof(x)-1-take(sizeof(x)-1), ...>::type] with
    [string_at<n>((x), i)] for each [i] *)
Definition make_string_call (n : Z) (x : list str) (indices : list Z) : list str :=
  let size := [text "sizeof"; lparen] ++ x ++ [rparen; text "-"; text "1"] in
  let take := tokens (text "::boost::metaparse::v1::impl::take(") ++ size ++ [rparen] in
  tokens (text "::boost::metaparse::v1::impl::make_string<")
  ++ take ++ [comma] ++ size ++ [text "-"] ++ take ++ [comma]
  ++ comma_separated
       (map (fun i => tokens (text "::boost::metaparse::v1::impl::string_at<")
                      ++ [print_number n] ++ tokens (text ">((") ++ x ++ [rparen; comma]
                      ++ [print_number i; rparen]) indices)
  ++ tokens (text ">::type").

(** The type [make_string_call n x indices] for a literal [x] of the characters [lit],
    with the definitions in the lines [ls]: [string_at<n>(x, i)] is a character if the
    literal is not too long, the one at [i] or 0. *)
Definition call_gives (ls : list str) (n : Z) (lit : str) (indices : list Z) (out : str) : Prop :=
  Z.of_nat (length lit) <= n
  /\ exists now, takes ls (Z.of_nat (length lit)) now
     /\ makes ls now (Z.of_nat (length lit) - now)
          (map (fun i => nth (Z.to_nat i) lit 0) indices) out.

(** The numbers from 0 *)
Definition up_to (k : Z) : list Z := map Z.of_nat (seq 0 (Z.to_nat k)).
