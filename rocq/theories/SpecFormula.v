(** Formulas with operators of several levels, signs and brackets, as texts and as
    values: stated without reference to parsers (except for the words). *)

From Coq Require Import ZArith List Bool.
From Verif Require Import Base Util Deep Spec SpecRules SpecCalc.
Import ListNotations.
Open Scope Z_scope.

(** A formula: a word (a number, for example), two formulas with an operator between
    them, or a formula with a sign before it. *)
Inductive formula : Type :=
| FWord (w : str)
| FOp (c : char) (a b : formula)
| FSign (c : char) (a : formula).

Section Table.
(** The operators of every level, from the level that binds least, with the functions
    of the levels; the signs and their function; the words and their values. *)
Variable ls : list (list char * mf2).
Variable signs : list char.
Variable sign : mf2.
Variable word : str -> value -> Prop.

(** [spells k a s]: [s] is a text of the formula [a] where an operator of a level less
    than [k] needs brackets.  The operand on the left of an operator can have operators
    of the same level, the one on the right can not.  More brackets than necessary and
    white space after words, operators, signs and brackets are fine. *)
Inductive spells : nat -> formula -> str -> Prop :=
| spells_word k w v sp : word w v -> Forall space_char sp -> spells k (FWord w) (w ++ sp)
| spells_op k j cs f c a b s1 sp s2 :
    nth_error ls j = Some (cs, f) -> In c cs -> (k <= j)%nat ->
    spells j a s1 -> Forall space_char sp -> spells (S j) b s2 ->
    spells k (FOp c a b) (s1 ++ c :: sp ++ s2)
| spells_sign k c a sp s :
    In c signs -> Forall space_char sp -> spells (length ls) a s ->
    spells k (FSign c a) (c :: sp ++ s)
| spells_brackets k a sp1 s sp2 :
    Forall space_char sp1 -> spells 0 a s -> Forall space_char sp2 ->
    spells k a (40 :: sp1 ++ s ++ 41 :: sp2).

(** The value of a formula. *)
Inductive worth : formula -> value -> Prop :=
| worth_word w v : word w v -> worth (FWord w) v
| worth_op cs f c a b x y v :
    In (cs, f) ls -> In c cs -> worth a x -> worth b y ->
    f x (VSeq [VChar c; y]) = Some v -> worth (FOp c a b) v
| worth_sign c a x v :
    In c signs -> worth a x -> sign x (VChar c) = Some v -> worth (FSign c a) v.

(** Words begin with characters that do not begin anything else, and the characters of
    the table can be told from white space and brackets. *)
Definition proper : Prop :=
  (forall w v, word w v -> exists c t, w = c :: t /\ ~ space_char c /\ c <> 40 /\ ~ In c signs)
  /\ (forall cs f c, In (cs, f) ls -> In c cs -> ~ space_char c /\ c <> 41)
  /\ (forall c, In c signs -> ~ space_char c /\ c <> 40).

(** What can come after a word: nothing, a bracket or an operator. *)
Definition after_word (s : str) : Prop :=
  s = [] \/ exists c t, s = c :: t /\ (c = 41 \/ exists cs f, In (cs, f) ls /\ In c cs).

Variable sd : std.
Variable env : program.

(** The parser of the words. *)
Definition reads_words (p : pexpr) : Prop :=
  (forall w v sp s ps, word w v -> Forall space_char sp -> after_word s ->
     exists ps', gives sd env p (w ++ sp ++ s) ps (Accept v s ps'))
  /\ (forall s ps, exists m pe, gives sd env p (40 :: s) ps (Reject m pe)).

(** A parser of the characters [cs] and white space after them. *)
Definition reads_characters (p : pexpr) (cs : list char) : Prop :=
  (forall c sp s ps, In c cs -> Forall space_char sp -> not_starting_with space_char s ->
     exists ps', gives sd env p (c :: sp ++ s) ps (Accept (VChar c) s ps'))
  /\ (forall s ps, not_starting_with (fun c => In c cs) s ->
        exists m pe, gives sd env p s ps (Reject m pe)).

(** The parsers of operands of the tutorial (11.hpp, 11_3.hpp, 12.hpp) and of the
    calculators: words and brackets around the named parser 0, and signs before. *)
Definition word_or_brackets (p : pexpr) (more : list pexpr) : pexpr :=
  POneOf (p :: PMiddleOf (PToken (PLitC 40)) (PRef 0) (PToken (PLitC 41)) :: more).
Inductive operand_parser (p : pexpr) : pexpr -> Prop :=
| without_signs more : signs = [] ->
    (forall q, In q more -> forall s ps, exists o, gives sd env q s ps o) ->
    operand_parser p (word_or_brackets p more)
| with_signs q more : reads_characters q signs ->
    (forall q', In q' more -> forall s ps, exists o, gives sd env q' s ps o) ->
    operand_parser p (PFoldrStartWithParser q (word_or_brackets p more) sign).

(** Parsers that accept nothing else. *)
Definition only_words (p : pexpr) : Prop :=
  forall s ps v s' ps', gives sd env p s ps (Accept v s' ps') ->
    exists w sp, s = w ++ sp ++ s' /\ word w v /\ Forall space_char sp.
Definition only_characters (p : pexpr) (cs : list char) : Prop :=
  forall s ps v s' ps', gives sd env p s ps (Accept v s' ps') ->
    exists c sp, In c cs /\ s = c :: sp ++ s' /\ Forall space_char sp /\ v = VChar c.
Definition accepts_nothing (p : pexpr) : Prop :=
  forall s ps v s' ps', ~ gives sd env p s ps (Accept v s' ps').
Inductive only_operands (p : pexpr) : pexpr -> Prop :=
| only_without_signs more : (forall q, In q more -> accepts_nothing q) ->
    only_operands p (word_or_brackets p more)
| only_with_signs q more : only_characters q signs ->
    (forall q', In q' more -> accepts_nothing q') ->
    only_operands p (PFoldrStartWithParser q (word_or_brackets p more) sign).
End Table.

(** A text of a formula with the necessary brackets and no others: [level_in ls c] is
    the level of the operator [c]. *)
Fixpoint level_in (ls : list (list char * mf2)) (c : char) : nat :=
  match ls with
  | [] => 0
  | l :: ls' => if existsb (Z.eqb c) (fst l) then 0 else S (level_in ls' c)
  end.
Fixpoint written (ls : list (list char * mf2)) (k : nat) (a : formula) : str :=
  match a with
  | FWord w => w
  | FOp c a b =>
      let j := level_in ls c in
      let s := written ls j a ++ c :: written ls (S j) b in
      if Nat.ltb j k then 40 :: s ++ [41] else s
  | FSign c a => c :: written ls (length ls) a
  end.

(** The formulas that can be written: the words are words and the operators and signs
    are in the table. *)
Fixpoint well_formed (ls : list (list char * mf2)) (signs : list char) (is_word : str -> Prop)
  (a : formula) : Prop :=
  match a with
  | FWord w => is_word w
  | FOp c a b => (exists cs f, In (cs, f) ls /\ In c cs)
      /\ well_formed ls signs is_word a /\ well_formed ls signs is_word b
  | FSign c a => In c signs /\ well_formed ls signs is_word a
  end.

(** Decimal numbers. *)
Definition number_word (w : str) (v : value) : Prop :=
  w <> [] /\ Forall digit_char w /\ decimal w <= int_max /\ v = VInt (decimal w).

(** The number a formula of decimal numbers stands for: [int] arithmetic without
    overflow. *)
Inductive arithmetic : formula -> Z -> Prop :=
| arith_number w : w <> [] -> Forall digit_char w -> is_int (decimal w) ->
    arithmetic (FWord w) (decimal w)
| arith_plus a b x y : arithmetic a x -> arithmetic b y -> is_int (x + y) ->
    arithmetic (FOp 43 a b) (x + y)
| arith_minus a b x y : arithmetic a x -> arithmetic b y -> is_int (x - y) ->
    arithmetic (FOp 45 a b) (x - y)
| arith_times a b x y : arithmetic a x -> arithmetic b y -> is_int (x * y) ->
    arithmetic (FOp 42 a b) (x * y)
| arith_divided a b x y q : arithmetic a x -> arithmetic b y -> y <> 0 -> quotient x y q ->
    is_int q -> arithmetic (FOp 47 a b) q
| arith_sign_plus a x : arithmetic a x -> arithmetic (FSign 43 a) x
| arith_sign_minus a x : arithmetic a x -> is_int (- x) -> arithmetic (FSign 45 a) (- x).
