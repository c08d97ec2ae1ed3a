(** The syntax of parsers that can be built from the library, and their
    meaning in terms of the functions of Combinators.v, Variadic.v and
    Parsers.v.

    [PRef k] refers to the [k]-th named parser of a program (in C++: a struct
    deriving from a parser, which can be mentioned before it is defined and
    therefore allows recursive parsers).  [PNative p] is a parser the user wrote
    without the library. *)

From Coq Require Import ZArith List Bool.
From Verif Require Import Base Util Combinators Variadic Parsers.
Import ListNotations.
Open Scope Z_scope.

Inductive pexpr : Type :=
| PNative (p : pfun)
| PRef (k : nat)
| PReturn (v : value)
| PFail (m : msg)
| POneChar
| PEmpty (r : value)
| PAcceptWhen (p : pexpr) (pr : pred1) (m : msg)
| PChangeErrorMessage (p : pexpr) (m : msg)
| PTransform (p : pexpr) (f : mf1)
| PTransformError (p : pexpr) (f : msg -> pos -> outcome)
| PTransformErrorMessage (p : pexpr) (f : mfmsg)
| PAlways (p : pexpr) (v : value)
| PLookAhead (p : pexpr)
| POptional (p : pexpr) (d : value)
| PExcept (p : pexpr) (v : value) (m : msg)
| PIf (p : pexpr) (t f : value)
| PFailAtFirstCharExpected (p : pexpr)
| PKeyword (kw : str) (r : value)
| PFoldl (p : pexpr) (st : option value) (f : mf2)
| PFoldl1 (p : pexpr) (st : option value) (f : mf2)
| PFoldlRejectIncomplete (p : pexpr) (st : option value) (f : mf2)
| PFoldlRejectIncomplete1 (p : pexpr) (st : option value) (f : mf2)
| PFoldlStartWithParser (p sp : pexpr) (f : mf2)
| PFoldlRejectIncompleteStartWithParser (p sp : pexpr) (f : mf2)
| PFoldrStartWithParser (p sp : pexpr) (f : mf2)
| PFoldr (p : pexpr) (st : value) (f : mf2)
| PFoldr1 (p : pexpr) (st : value) (f : mf2)
| PFoldrRejectIncomplete (p : pexpr) (st : value) (f : mf2)
| PFoldrRejectIncomplete1 (p : pexpr) (st : value) (f : mf2)
| PIterate (p : pexpr) (k : Z)
| POneOf (l : list pexpr)
| PSequence (l : list pexpr)
| PSequenceApply (t : list value -> value) (l : list pexpr)
| PNthOf (k : Z) (l : list pexpr)
| PFirstOf (l : list pexpr)
| PLastOf (l : list pexpr)
| POneOfC (cs : list char)
| POneCharExceptC (cs : list char)
| PMiddleOf (p1 p2 p3 : pexpr)
| PEntireInput (p : pexpr) (m : msg).

(** A program: the definitions of the named parsers. *)
Definition program := nat -> pexpr.

(** The parser denoted by an expression.  [n] bounds the nesting depth of named
    parsers and the number of iterations of every fold. *)
Fixpoint eval (cfg : config) (env : program) (n : nat) {struct n} : pexpr -> pfun :=
  fix ev (e : pexpr) : pfun :=
    match e with
    | PNative p => p
    | PRef k =>
        match n with
        | O => fun _ _ => OutOfFuel
        | S n' => fun s ps => eval cfg env n' (env k) s ps
        end
    | PReturn v => return_ v
    | PFail m => fail m
    | POneChar => one_char
    | PEmpty r => empty r
    | PAcceptWhen p pr m => accept_when (ev p) pr m
    | PChangeErrorMessage p m => change_error_message (ev p) m
    | PTransform p f => transform (ev p) f
    | PTransformError p f => transform_error (ev p) f
    | PTransformErrorMessage p f => transform_error_message (ev p) f
    | PAlways p v => always (ev p) v
    | PLookAhead p => look_ahead (ev p)
    | POptional p d => optional (ev p) d
    | PExcept p v m => except (ev p) v m
    | PIf p t f => if_ (ev p) t f
    | PFailAtFirstCharExpected p => fail_at_first_char_expected (ev p)
    | PKeyword kw r => keyword kw r
    | PFoldl p st f => foldl n (ev p) st f
    | PFoldl1 p st f => foldl1 n (ev p) st f
    | PFoldlRejectIncomplete p st f => foldl_reject_incomplete n (ev p) st f
    | PFoldlRejectIncomplete1 p st f => foldl_reject_incomplete1 n (ev p) st f
    | PFoldlStartWithParser p sp f => foldl_start_with_parser n (ev p) (ev sp) f
    | PFoldlRejectIncompleteStartWithParser p sp f =>
        foldl_reject_incomplete_start_with_parser n (ev p) (ev sp) f
    | PFoldrStartWithParser p sp f => foldr_start_with_parser n (ev p) (ev sp) f
    | PFoldr p st f => foldr n (ev p) st f
    | PFoldr1 p st f => foldr1 n (ev p) st f
    | PFoldrRejectIncomplete p st f => foldr_reject_incomplete cfg n (ev p) st f
    | PFoldrRejectIncomplete1 p st f => foldr_reject_incomplete1 cfg n (ev p) st f
    | PIterate p k => iterate_c n (ev p) k
    | POneOf l => one_of cfg (map ev l)
    | PSequence l => sequence cfg (map ev l)
    | PSequenceApply t l => sequence_apply cfg t (map ev l)
    | PNthOf k l => nth_of_c cfg k (map ev l)
    | PFirstOf l => first_of cfg (map ev l)
    | PLastOf l => last_of cfg (map ev l)
    | POneOfC cs => one_of_c cfg cs
    | POneCharExceptC cs => one_char_except_c cfg cs
    | PMiddleOf p1 p2 p3 => middle_of cfg (ev p1) (ev p2) (ev p3)
    | PEntireInput p m => entire_input cfg (ev p) m
    end.

(** The parsers of the library that are defined from others, as expressions
    (same citations as in Parsers.v and Combinators.v). *)
Definition PLitC (c : char) : pexpr :=
  PAcceptWhen (PChangeErrorMessage POneChar (literal_expected c))
    (is_char_c c) (literal_expected c).
Definition PRangeC (lo hi : char) : pexpr :=
  PAcceptWhen POneChar (in_range_c lo hi) unexpected_character.
Definition PDigit : pexpr :=
  PAcceptWhen (PChangeErrorMessage POneChar digit_expected) is_digit digit_expected.
Definition PDigitVal : pexpr := PTransform PDigit digit_to_int.
Definition PLetter : pexpr := PAcceptWhen POneChar is_letter letter_expected.
Definition PAlphanum : pexpr := POneOf [PLetter; PDigit].
Definition PSpace : pexpr := PAcceptWhen POneChar is_whitespace whitespace_expected.
Definition PRepeated (p : pexpr) : pexpr := PFoldl p (Some (VSeq [])) back_inserter.
Definition PRepeated1 (p : pexpr) : pexpr := PFoldl1 p (Some (VSeq [])) back_inserter.
Definition PRepeatedRejectIncomplete (p : pexpr) : pexpr :=
  PFoldlRejectIncomplete p (Some (VSeq [])) back_inserter.
Definition PRepeatedRejectIncomplete1 (p : pexpr) : pexpr :=
  PFoldlRejectIncomplete1 p (Some (VSeq [])) back_inserter.
Definition PRepeatedOneOf (l : list pexpr) : pexpr := PRepeated (POneOf l).
Definition PRepeatedOneOf1 (l : list pexpr) : pexpr := PRepeated1 (POneOf l).
Definition PSpaces : pexpr := PRepeated1 PSpace.
Definition PToken (p : pexpr) : pexpr := PFirstOf [p; PRepeated PSpace].
Definition PInt : pexpr := PFoldl1 PDigitVal (Some (VInt 0)) next_digit.
