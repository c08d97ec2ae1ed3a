(** The parsers of the user manual (doc/manual.qbk) and of the reference of
    [grammar] (doc/grammar.qbk).  The code of doc/manual.qbk is quoted by line. *)

From Coq Require Import ZArith List Bool String.
From Verif Require Import Base Util Combinators Variadic Parsers Deep Messages Calculator Grammar Functions.
Import ListNotations.
Open Scope Z_scope.

(** [sum_op], /repo/doc/manual.qbk:182 *)
Definition sum_op : mf2 := mpl_plus.

(** [sum_parser], 184-190; [int_token], 127, is [token<int_>] *)
Definition sum_parser : pexpr := PTransform (PRepeated int_token) sum_vector.
(** [better_sum_parser], 233 *)
Definition better_sum_parser : pexpr := PFoldl int_token (Some (VInt 0)) sum_op.
(** ... "you can use [foldl1] instead of [foldl]", 250-255 *)
Definition better_sum_parser1 : pexpr := PFoldl1 int_token (Some (VInt 0)) sum_op.
(** ... "if it is implemented using [foldr]", 269-278, and [foldr1], 286-287 *)
Definition better_sum_parser_r : pexpr := PFoldr int_token (VInt 0) sum_op.
Definition better_sum_parser_r1 : pexpr := PFoldr1 int_token (VInt 0) sum_op.

(** [plus_int], 310; [plus_token], 309, is [token<lit_c<'+'>>] *)
Definition plus_int : pexpr := PLastOf [plus_token; int_token].
(** [sum_parser2], 312 *)
Definition sum_parser2 : pexpr := PFoldl plus_int (Some (VInt 0)) sum_op.
(** "You might think of making the [+] symbol optional ... - don't do that",
    331-333 *)
Definition optional_plus_parser : pexpr :=
  PFoldl (PLastOf [POptional plus_token VVoid; int_token]) (Some (VInt 0)) sum_op.
(** [sum_parser3], 347 *)
Definition sum_parser3 : pexpr := PFoldlStartWithParser plus_int int_token sum_op.
(** [int_plus] and [sum_parser4], 381-383 *)
Definition int_plus : pexpr := PFirstOf [int_token; plus_token].
Definition sum_parser4 : pexpr := PFoldrStartWithParser int_plus int_token sum_op.
(** the [foldl_reject_incomplete_start_with_parser] of 437-446 *)
Definition sum_parser5 : pexpr := PFoldlRejectIncompleteStartWithParser plus_int int_token sum_op.

(** [plus_action], /repo/doc/grammar.qbk:115-116: [lazy_fold<back<_1>,
    front<_1>, lambda<lazy_plus<_1, back<_2>>>::type>] *)
Definition sum_action : mf1 := fold_tail (fun state v =>
  match seq_back v with Some x => mpl_plus state x | None => None end).
(** [plus_grammar], /repo/doc/grammar.qbk:118-125 and /repo/doc/manual.qbk:517-522 *)
Definition plus_decls : list decl :=
  [Import (literal "int_token") int_token;
   Rule ws_rule None;
   Rule (literal "plus_token ::= '+' ws") (Some seq_front);
   Rule (literal "plus_exp ::= int_token (plus_token int_token)*") (Some sum_action)].
(** [plus_grammar] as a parser *)
Definition plus_grammar (cfg : config) (n : nat) : pfun := fun s ps =>
  match add_decls cfg n (empty_grammar (literal "plus_exp")) plus_decls with
  | Ok g => grammar_parser cfg no_program n g s ps
  | Ill => Illformed
  | Deep => OutOfFuel
  end.
(** [plus_parser], /repo/doc/grammar.qbk:127, without [build_parser] *)
Definition plus_parser (cfg : config) (n : nat) : pfun :=
  entire_grammar cfg n (literal "plus_exp") plus_decls.
