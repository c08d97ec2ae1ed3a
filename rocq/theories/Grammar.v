(** grammar.hpp: parsers described by an EBNF-like language. *)

From Coq Require Import ZArith List Bool.
From Verif Require Import Base Util Combinators Variadic Parsers Deep.
Import ListNotations.
Open Scope Z_scope.

(** ** The parser of the rules *)

(** [build_repeated], grammar.hpp:81-87, and [repeated_apply_impl], 59-79 *)
Definition build_repeated : mf2 := fun st t =>
  match st, as_int t with
  | VGram e, Some c => Some (VGram (if c =? 43 then GPlus e else GStar e))
  | _, _ => None
  end.

(** [build_sequence], grammar.hpp:89-109 *)
Definition build_sequence : mf2 := fun st p =>
  match st, p with
  | VGram a, VGram b => Some (VGram (GSeq a b))
  | _, _ => None
  end.

(** [build_selection], grammar.hpp:111-131 *)
Definition build_selection : mf2 := fun st p =>
  match st, p with
  | VGram a, VGram b => Some (VGram (GSel a b))
  | _, _ => None
  end.

(** [build_name], grammar.hpp:153-168 *)
Definition build_name : mf1 := fun v =>
  match v with
  | VStr s => Some (VGram (GName s))
  | _ => None
  end.

(** [build_char], grammar.hpp:170-185 *)
Definition build_char : mf1 := fun v =>
  match as_int v with
  | Some c => Some (VGram (GChar c))
  | None => None
  end.

(** The tokens, grammar.hpp:187-192 *)
Definition repeated_token : pexpr := PToken (PLitC 42).
Definition repeated1_token : pexpr := PToken (PLitC 43).
Definition or_token : pexpr := PToken (PLitC 124).
Definition open_bracket_token : pexpr := PToken (PLitC 40).
Definition close_bracket_token : pexpr := PToken (PLitC 41).
Definition define_token : pexpr := PToken (PKeyword [58; 58; 61] VVoid_).

(** [char_token], grammar.hpp:194-212 *)
Definition char_token : pexpr :=
  PMiddleOf (PLitC 39)
    (POneOf
       [ PLastOf
           [ PLitC 92;
             POneOf [ PAlways (PLitC 110) (VChar 10);
                      PAlways (PLitC 114) (VChar 13);
                      PAlways (PLitC 116) (VChar 9);
                      PLitC 92;
                      PLitC 39 ] ];
         POneCharExceptC [39] ])
    (PToken (PLitC 39)).

(** [name_token], grammar.hpp:214-222 *)
Definition name_token : pexpr :=
  PToken (PFoldr1 (POneOf [PAlphanum; PLitC 95]) (VStr []) front_inserter).

(** [expression] is the named parser 0 (forward declaration, grammar.hpp:224) *)

(** [bracket_expression], grammar.hpp:226-228 *)
Definition bracket_expression : pexpr :=
  PMiddleOf open_bracket_token (PRef 0) close_bracket_token.

(** [name_expression], grammar.hpp:230-236 *)
Definition name_expression : pexpr :=
  POneOf [ PTransform char_token build_char;
           PTransform name_token build_name;
           bracket_expression ].

(** [repeated_expression], grammar.hpp:238-244 *)
Definition repeated_expression : pexpr :=
  PFoldlStartWithParser (POneOf [repeated_token; repeated1_token])
    name_expression build_repeated.

(** [seq_expression], grammar.hpp:246-252 *)
Definition seq_expression : pexpr :=
  PFoldlStartWithParser repeated_expression repeated_expression build_sequence.

(** [expression], grammar.hpp:254-260 *)
Definition expression : pexpr :=
  PFoldlStartWithParser (PLastOf [or_token; seq_expression])
    seq_expression build_selection.

Definition rule_program : program := fun _ => expression.

(** [rule_definition], grammar.hpp:262 *)
Definition rule_definition : pexpr := PSequence [name_token; define_token; PRef 0].

(** [parser_parser], grammar.hpp:264, without [build_parser] *)
Definition rule_parser : pexpr := PEntireInput rule_definition end_of_input_expected.

(** ** Building grammars *)

(** A template instantiation that succeeds, fails or is too deep. *)
Inductive res (A : Type) : Type :=
| Ok (a : A)
| Ill
| Deep.
Arguments Ok {A} a.
Arguments Ill {A}.
Arguments Deep {A}.

(** What a name is bound to: [build_parsed_parser<S>::the_parser],
    grammar.hpp:285-291, or [build_native_parser<P>], 266-276. *)
Inductive gdef : Type :=
| Parsed (e : gexpr)
| Native (p : pexpr).

(** [grammar_builder<Start, Rules, Actions>], grammar.hpp:309-334.  The
    [boost::mpl::map]s are lists with the newest entry first
    ([boost::mpl::insert] makes a new entry hide older ones with the same key;
    not part of /repo). *)
Record grammar : Type := mkgrammar {
  g_start : str;
  g_rules : list (str * gdef);
  g_actions : list (str * mf1)
}.

(** [boost::mpl::at]; [metaparse::string]s are equal if their characters are. *)
Fixpoint lookup {A : Type} (k : str) (l : list (str * A)) : option A :=
  match l with
  | [] => None
  | (k', a) :: l' => if list_eq_dec Z.eq_dec k k' then Some a else lookup k l'
  end.

(** [grammar<Start>], grammar.hpp:374-381 *)
Definition empty_grammar (start : str) : grammar := mkgrammar start [] [].
(** ... with the default argument [string<'S'>] *)
Definition default_start : str := [83].

(** [build_parsed_parser<S>], grammar.hpp:278-294: the name and the expression
    of a rule.  [parser_parser] (264) is a [build_parser]: a parsing error is a
    compilation error. *)
Definition parse_rule (cfg : config) (n : nat) (s : str) : res (str * gexpr) :=
  match build_parser (eval cfg rule_program n rule_parser) s with
  | Built (VSeq (VStr name :: l)) =>
      match last l VVoid with
      | VGram e => Ok (name, e)
      | _ => Ill
      end
  | Built _ => Ill
  | ParsingFailed _ _ _ => Ill
  | BuildIllformed => Ill
  | BuildOutOfFuel => Deep
  end.

(** [rebuild<S>], grammar.hpp:296-299 *)
Definition rebuild (cfg : config) (n : nat) (s : str) : res str :=
  match build_parser (eval cfg rule_program n name_token) s with
  | Built (VStr name) => Ok name
  | Built _ => Ill
  | ParsingFailed _ _ _ => Ill
  | BuildIllformed => Ill
  | BuildOutOfFuel => Deep
  end.

(** [grammar_builder::rule<Def, Action>], grammar.hpp:330-333, with [add_rule],
    336-359 *)
Definition add_rule (cfg : config) (n : nat) (g : grammar) (def : str)
  (action : option mf1) : res grammar :=
  match parse_rule cfg n def with
  | Ok (name, e) =>
      Ok (mkgrammar (g_start g) ((name, Parsed e) :: g_rules g)
            (match action with
             | None => g_actions g
             | Some f => (name, f) :: g_actions g
             end))
  | Ill => Ill
  | Deep => Deep
  end.

(** [grammar_builder::import<Name, P>], grammar.hpp:325-328, with [add_import],
    361-371 *)
Definition add_import (cfg : config) (n : nat) (g : grammar) (name : str)
  (p : pexpr) : res grammar :=
  match rebuild cfg n name with
  | Ok name' =>
      Ok (mkgrammar (g_start g) ((name', Native p) :: g_rules g) (g_actions g))
  | Ill => Ill
  | Deep => Deep
  end.

(** A chain of [::rule<...>::type] and [::import<...>::type]. *)
Inductive decl : Type :=
| Rule (def : str) (action : option mf1)
| Import (name : str) (p : pexpr).

Definition add_decl (cfg : config) (n : nat) (g : grammar) (d : decl) : res grammar :=
  match d with
  | Rule def action => add_rule cfg n g def action
  | Import name p => add_import cfg n g name p
  end.

Fixpoint add_decls (cfg : config) (n : nat) (g : grammar) (ds : list decl) : res grammar :=
  match ds with
  | [] => Ok g
  | d :: ds' =>
      match add_decl cfg n g d with
      | Ok g' => add_decls cfg n g' ds'
      | o => o
      end
  end.

(** ** Instantiating the parser of a grammar *)

(** [get_parser<G, Name>], grammar.hpp:133-151, and the [apply<G>] members of
    the expressions (59-185); [n] bounds the depth of references.  The
    arguments of [sequence] and [one_of] are instantiated from the left
    ([typename ...::type]); a name without definition has no parser. *)
Fixpoint instantiate (g : grammar) (n : nat) {struct n} : gexpr -> res pexpr :=
  fix inst (e : gexpr) : res pexpr :=
    match e with
    | GChar c => Ok (PLitC c)
    | GName name =>
        match lookup name (g_rules g) with
        | None => Ill
        | Some d =>
            match
              match d with
              | Native p => Ok p
              | Parsed e' =>
                  match n with
                  | O => Deep
                  | S n' => instantiate g n' e'
                  end
              end
            with
            | Ok p =>
                match lookup name (g_actions g) with
                | None => Ok p
                | Some f => Ok (PTransform p f)
                end
            | o => o
            end
        end
    | GStar a => match inst a with Ok p => Ok (PRepeated p) | o => o end
    | GPlus a => match inst a with Ok p => Ok (PRepeated1 p) | o => o end
    | GSeq a b =>
        match inst a with
        | Ok p => match inst b with Ok q => Ok (PSequence [p; q]) | o => o end
        | o => o
        end
    | GSel a b =>
        match inst a with
        | Ok p => match inst b with Ok q => Ok (POneOf [p; q]) | o => o end
        | o => o
        end
    end.

(** [grammar_builder::apply<S, Pos>], grammar.hpp:317-323 *)
Definition grammar_parser (cfg : config) (env : program) (n : nat) (g : grammar) : pfun :=
  fun s ps =>
  match rebuild cfg n (g_start g) with
  | Ok name =>
      match instantiate g n (GName name) with
      | Ok p => eval cfg env n p s ps
      | Ill => Illformed
      | Deep => OutOfFuel
      end
  | Ill => Illformed
  | Deep => OutOfFuel
  end.
