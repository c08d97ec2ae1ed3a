(** Texts that differ in the white space between their tokens only, and parsers
    that read tokens only.  Refers to the syntax of parser expressions (Deep.v)
    and the vocabulary of Spec.v, not to the functions of the model. *)

From Coq Require Import ZArith List Bool.
From Verif Require Import Base Util Deep Spec SpecDeep.
Import ListNotations.
Open Scope Z_scope.

(** White space, marks (which stand for themselves) and the characters of the
    words of several kinds (numbers, names, operators ...). *)
Inductive kind : Type :=
| Space
| Mark
| Word (k : nat).

Section Layout.
Variable kind_of : char -> kind.

Definition of_kind (k : kind) (c : char) : Prop := kind_of c = k.

(** The tokens of a text: marks, and words as long as possible. *)
Inductive split : str -> list str -> Prop :=
| split_end : split [] []
| split_space c s ts : of_kind Space c -> split s ts -> split (c :: s) ts
| split_mark c s ts : of_kind Mark c -> split s ts -> split (c :: s) ([c] :: ts)
| split_word k w s ts : w <> [] -> Forall (of_kind (Word k)) w ->
    not_starting_with (of_kind (Word k)) s -> split s ts -> split (w ++ s) (w :: ts).

(** The same tokens with other white space around them ... *)
Definition same_tokens (s s' : str) : Prop := exists ts, split s ts /\ split s' ts.

(** ... beginning with the first token. *)
Definition at_token (s : str) : Prop := not_starting_with (of_kind Space) s.
Definition same_from_token (s s' : str) : Prop :=
  same_tokens s s' /\ at_token s /\ at_token s'.

(** Not inside a word. *)
Definition between_tokens (u t : str) : Prop :=
  forall a c d b k, u = a ++ [c] -> t = d :: b -> of_kind (Word k) c -> ~ of_kind (Word k) d.

(** Places of two texts (beginning at [ps] and [ps']) that are followed by the same
    tokens. *)
Definition same_place (s : str) (ps q : pos) (s' : str) (ps' q' : pos) : Prop :=
  exists u t u' t', s = u ++ t /\ walk ps u q /\ s' = u' ++ t' /\ walk ps' u' q'
    /\ same_tokens t t'.

(** What is done inside a word ([Lexical k]) and between tokens ([Syntactic]) by
    the named parsers of a program. *)
Inductive role : Type :=
| Unused
| Lexical (k : nat)
| Syntactic.
Variable role_of : nat -> role.

(** Reads one character ... *)
Inductive any_char : pexpr -> Prop :=
| any_one_char : any_char POneChar
| any_one_char_message m : any_char (PChangeErrorMessage POneChar m).
(** ... satisfying [P]. *)
Inductive reads_one (P : char -> Prop) : pexpr -> Prop :=
| one_of_those cs : Forall P cs -> reads_one P (POneOfC cs)
| one_char_when q pr m : any_char q -> (forall c, ~ P c -> pr (VChar c) = Some false) ->
    reads_one P (PAcceptWhen q pr m).

(** Combinators that only look at the text through their parts. *)
Definition combinator (e : pexpr) : Prop :=
  match e with
  | PNative _ | PRef _ | POneChar | PEmpty _ | PKeyword _ _ | POneOfC _
  | POneCharExceptC _ | PTransformError _ _ | PEntireInput _ _ => False
  | PTransformErrorMessage _ f => forall m, f m <> None
  | _ => True
  end.

(** Parsers of words of the kind [k]. *)
Inductive lexeme (k : nat) : pexpr -> Prop :=
| lexeme_char e : reads_one (of_kind (Word k)) e -> lexeme k e
| lexeme_keyword kw v : Forall (of_kind (Word k)) kw -> lexeme k (PKeyword kw v)
| lexeme_ref i : role_of i = Lexical k -> lexeme k (PRef i)
| lexeme_combinator e : combinator e -> (forall c, In c (children e) -> lexeme k c) ->
    lexeme k e.

(** Parsers of marks. *)
Inductive mark_reader : pexpr -> Prop :=
| mark_char e : reads_one (of_kind Mark) e -> mark_reader e
| mark_transform p f : mark_reader p -> mark_reader (PTransform p f)
| mark_always p v : mark_reader p -> mark_reader (PAlways p v)
| mark_message p m : mark_reader p -> mark_reader (PChangeErrorMessage p m).

(** Parsers that read by means of [token] and skip white space only. *)
Inductive tokens_only : pexpr -> Prop :=
| tokens_word k p : lexeme k p -> tokens_only (PToken p)
| tokens_mark p : mark_reader p -> tokens_only (PToken p)
| tokens_spaces : tokens_only (PRepeated PSpace)
| tokens_ref i : role_of i = Syntactic -> tokens_only (PRef i)
| tokens_empty v : tokens_only (PEmpty v)
| tokens_entire_input p m : tokens_only p -> tokens_only (PEntireInput p m)
| tokens_combinator e : combinator e -> (forall c, In c (children e) -> tokens_only c) ->
    tokens_only e.

(** The named parsers do what they are for. *)
Definition roles_kept (env : program) : Prop :=
  forall i, match role_of i with
            | Unused => True
            | Lexical k => lexeme k (env i)
            | Syntactic => tokens_only (env i)
            end.

End Layout.

(** White space is what [space] reads. *)
Definition spaces_known (kind_of : char -> kind) : Prop :=
  forall c, kind_of c = Space <-> space_char c.

(** Numbers are words; used for the calculators. *)
Definition is_space (c : char) : bool := (c =? 32) || (c =? 13) || (c =? 10) || (c =? 9).
Definition is_number (c : char) : bool := (48 <=? c) && (c <=? 57).
Definition number_kind (c : char) : kind :=
  if is_space c then Space else if is_number c then Word 0 else Mark.
(** Numbers, names and keywords are words and comparisons are others; used for
    example/meta_hs. *)
Definition is_name (c : char) : bool :=
  is_number c || ((97 <=? c) && (c <=? 122)) || ((65 <=? c) && (c <=? 90)) || (c =? 95).
Definition hs_kind (c : char) : kind :=
  if is_space c then Space
  else if is_name c then Word 0
  else if (c =? 47) || (c =? 60) || (c =? 61) || (c =? 62) then Word 1
  else Mark.
