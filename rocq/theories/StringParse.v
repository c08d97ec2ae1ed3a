(** The parsers on the string types of the library.

    Base.v models the parsed text as a list of characters.  The parsers see a
    [boost::metaparse::string] instead, through [mpl::empty], [mpl::front] and
    [mpl::pop_front].  Only one_char.hpp, empty.hpp and keyword.hpp (on its
    keyword) use them; every other header passes the string on.  This file
    defines those three parsers on an arbitrary implementation of the three
    operations and the parsers built from them. *)

From Coq Require Import ZArith List Bool.
From Verif Require Import Base Util Combinators Variadic Parsers Deep Strings.
Import ListNotations.
Open Scope Z_scope.

(** An implementation of strings: a sequence of template arguments with
    [mpl::empty], [mpl::front] and [mpl::pop_front] ([None]: ill-formed), and
    the string of given characters. *)
Record string_ops : Set := mkops {
  so_empty : list Z -> option bool;
  so_front : list Z -> option char;
  so_pop_front : list Z -> option (list Z);
  so_string : str -> list Z
}.

(** cpp11/string.hpp *)
Definition ops_11 : string_ops := mkops empty_11 front_11 pop_front_11 (fun s => s).

(** cpp98/string.hpp with LIMIT_STRING_SIZE = [lim] *)
Definition ops_98 (lim : nat) : string_ops :=
  mkops empty_98 front_98 (fun l => Some (pop_front_98 l)) (string_98 lim).

(** string.hpp:11-15: which of the two is used *)
Definition ops_of (sd : std) (lim : nat) : string_ops :=
  match sd with
  | Std98 => ops_98 lim
  | Std11 | Std14 => ops_11
  end.

(** [one_char], one_char.hpp:28-65 *)
Definition one_char_on (o : string_ops) : pfun := fun s ps =>
  match so_empty o s with
  | Some true => Reject unexpected_end_of_input ps
  | Some false =>
      match so_front o s, so_pop_front o s with
      | Some c, Some s' => Accept (VChar c) s' (next_pos c ps)
      | _, _ => Illformed
      end
  | None => Illformed
  end.

(** [empty<Result>], empty.hpp:23-36 *)
Definition empty_on (o : string_ops) (r : value) : pfun := fun s ps =>
  match so_empty o s with
  | Some true => Accept r s ps
  | Some false => Reject end_of_input_expected ps
  | None => Illformed
  end.

(** [lit_c<C>], lit_c.hpp:21-28; [lit<C>], lit.hpp:17-18 *)
Definition lit_c_on (o : string_ops) (c : char) : pfun :=
  accept_when (change_error_message (one_char_on o) (literal_expected c))
    (is_char_c c) (literal_expected c).

(** [keyword<Kw, ResultType>], keyword.hpp:28-76; [Kw] is a string too and [n]
    bounds the depth of the recursion over it. *)
Fixpoint keyword_on (o : string_ops) (n : nat) (kw : list Z) (r : value) : pfun :=
  fun s ps =>
  match n with
  | O => OutOfFuel
  | S n' =>
      match so_empty o kw with
      | Some true => return_ r s ps
      | Some false =>
          match so_front o kw, so_pop_front o kw with
          | Some c, Some kw' =>
              match lit_c_on o c s ps with
              | Accept _ s' ps' => keyword_on o n' kw' r s' ps'
              | res => res
              end
          | _, _ => Illformed
          end
      | None => Illformed
      end
  end.

(** [one_of_c<Cs...>]: cpp98/one_of_c.hpp:35-71, cpp11/one_of_c.hpp:22-29,
    cpp14/one_of_c.hpp:22-29 *)
Definition one_of_c_on (o : string_ops) (cfg : config) (cs : list char) : pfun :=
  match cfg_std cfg with
  | Std98 => fun s ps =>
      if Nat.ltb (length cs) (limit_one_of cfg)
      then one_of_98 (limit_one_of cfg) (map (lit_c_on o) cs) s ps else Illformed
  | Std11 =>
      accept_when (one_char_on o) (any_of_c_11 cs) none_of_the_expected_cases_found
  | Std14 =>
      accept_when (one_char_on o) (any_of_c_14 cs) none_of_the_expected_cases_found
  end.

(** [one_char_except_c<Cs...>]: cpp98/one_char_except_c.hpp:34-87,
    cpp11/one_char_except_c.hpp:20-27 *)
Definition one_char_except_c_on (o : string_ops) (cfg : config) (cs : list char) : pfun :=
  match cfg_std cfg with
  | Std98 => fun s ps =>
      if Nat.ltb (length cs) (limit_one_char_except cfg)
      then accept_when (one_char_on o) (is_none_98 (length cs) cs)
             unexpected_character s ps
      else Illformed
  | Std11 | Std14 => accept_when (one_char_on o) (is_none_c cs) unexpected_character
  end.

(** [entire_input<P, Msg>], entire_input.hpp:19-27 *)
Definition entire_input_on (o : string_ops) (cfg : config) (p : pfun) (m : msg) : pfun :=
  match m with
  | end_of_input_expected => first_of cfg [p; empty_on o VVoid]
  | _ => first_of cfg [p; change_error_message (empty_on o VVoid) m]
  end.

(** The parser denoted by an expression, on strings of the implementation [o].
    As [eval] of Deep.v, with the parsers above for those that inspect a
    string. *)
Fixpoint eval_on (o : string_ops) (cfg : config) (env : program) (n : nat)
  {struct n} : pexpr -> pfun :=
  fix ev (e : pexpr) : pfun :=
    match e with
    | PNative p => p
    | PRef k =>
        match n with
        | O => fun _ _ => OutOfFuel
        | S n' => fun s ps => eval_on o cfg env n' (env k) s ps
        end
    | PReturn v => return_ v
    | PFail m => fail m
    | POneChar => one_char_on o
    | PEmpty r => empty_on o r
    | PAcceptWhen p pr m => accept_when (ev p) pr m
    | PChangeErrorMessage p m => change_error_message (ev p) m
    | PTransform p f => transform (ev p) f
    | PTransformError p f => transform_error (ev p) f
    | PTransformErrorMessage p f => transform_error_message (ev p) f
    | PAlways p v => always (ev p) v
    | PLookAhead p => look_ahead (ev p)
    | POptional p d => optional (ev p) d
    | PExcept p v m => except (ev p) v m
    | PIf p t f => if_ (ev p) t f
    | PFailAtFirstCharExpected p => fail_at_first_char_expected (ev p)
    | PKeyword kw r => keyword_on o (S (length kw)) (so_string o kw) r
    | PFoldl p st f => foldl n (ev p) st f
    | PFoldl1 p st f => foldl1 n (ev p) st f
    | PFoldlRejectIncomplete p st f => foldl_reject_incomplete n (ev p) st f
    | PFoldlRejectIncomplete1 p st f => foldl_reject_incomplete1 n (ev p) st f
    | PFoldlStartWithParser p sp f => foldl_start_with_parser n (ev p) (ev sp) f
    | PFoldlRejectIncompleteStartWithParser p sp f =>
        foldl_reject_incomplete_start_with_parser n (ev p) (ev sp) f
    | PFoldrStartWithParser p sp f => foldr_start_with_parser n (ev p) (ev sp) f
    | PFoldr p st f => foldr n (ev p) st f
    | PFoldr1 p st f => foldr1 n (ev p) st f
    | PFoldrRejectIncomplete p st f => foldr_reject_incomplete cfg n (ev p) st f
    | PFoldrRejectIncomplete1 p st f => foldr_reject_incomplete1 cfg n (ev p) st f
    | PIterate p k => iterate_c n (ev p) k
    | POneOf l => one_of cfg (map ev l)
    | PSequence l => sequence cfg (map ev l)
    | PSequenceApply t l => sequence_apply cfg t (map ev l)
    | PNthOf k l => nth_of_c cfg k (map ev l)
    | PFirstOf l => first_of cfg (map ev l)
    | PLastOf l => last_of cfg (map ev l)
    | POneOfC cs => one_of_c_on o cfg cs
    | POneCharExceptC cs => one_char_except_c_on o cfg cs
    | PMiddleOf p1 p2 p3 => middle_of cfg (ev p1) (ev p2) (ev p3)
    | PEntireInput p m => entire_input_on o cfg (ev p) m
    end.
