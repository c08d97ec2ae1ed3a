(** Where formulas go wrong: stated without reference to the way parsers of formulas are
    written. *)

From Coq Require Import ZArith List Bool.
From Verif Require Import Base Util Deep Spec SpecRules SpecPrecedence SpecGrouping SpecFormula
  SpecGroupedFormula.
Import ListNotations.
Open Scope Z_scope.

(** [u] is the beginning of a text of a formula. *)
Definition begins_formula (ls : list (grouping * (list char * mf2))) (signs : list char)
  (word : str -> value -> Prop) (k : nat) (u : str) : Prop :=
  exists a t, grouped_spells ls signs word k a (u ++ t).

(** Accepting moves on over the text accepted. *)
Definition moves_on (sd : std) (env : program) (p : pexpr) : Prop :=
  forall s ps r s' ps', gives sd env p s ps (Accept r s' ps') ->
    exists u, s = u ++ s' /\ walk ps u ps'.

(** Rejecting happens where the text begins. *)
Definition gives_up_at_once (sd : std) (env : program) (p : pexpr) : Prop :=
  forall s ps m pe, gives sd env p s ps (Reject m pe) -> pe = ps.

(** Texts that begin with one of [cs] are not rejected. *)
Definition never_rejects (sd : std) (env : program) (p : pexpr) (cs : list char) : Prop :=
  forall s ps m pe, gives sd env p s ps (Reject m pe) -> forall c t, s = c :: t -> ~ In c cs.

(** The parsers of operands: words and brackets, other parsers that accept nothing ([fail],
    for example) and signs in front. *)
Inductive plain_operands (signs : list char) (sign : mf2) (sd : std) (env : program)
  (p : pexpr) : pexpr -> Prop :=
| plain_without_signs more : signs = [] ->
    (forall q, In q more -> accepts_nothing sd env q /\ gives_up_at_once sd env q) ->
    plain_operands signs sign sd env p (word_or_brackets p more)
| plain_with_signs q more : only_characters sd env q signs -> never_rejects sd env q signs ->
    moves_on sd env q ->
    (forall q', In q' more -> accepts_nothing sd env q' /\ gives_up_at_once sd env q') ->
    plain_operands signs sign sd env p (PFoldrStartWithParser q (word_or_brackets p more) sign).

(** After [u] an operand is wanted: nothing, or an operator, a sign or an opening bracket
    is before. *)
Definition operand_wanted (ls : list (grouping * (list char * mf2))) (signs : list char) (u : str) : Prop :=
  u = [] \/ exists u0 c sp, u = u0 ++ c :: sp /\ Forall space_char sp
    /\ (c = 40 \/ In c signs \/ exists g cs f, In (g, (cs, f)) ls /\ In c cs).

(** No operand begins here: no word, no sign and no opening bracket. *)
Definition no_operand (sd : std) (env : program) (p : pexpr) (signs : list char) (r : str) (pe : pos) : Prop :=
  (exists m, gives sd env p r pe (Reject m pe)) /\ forall c t, r = c :: t -> c <> 40 /\ ~ In c signs.

(** [u] ends with an opening bracket and a formula, and the bracket is not closed here. *)
Definition unclosed (ls : list (grouping * (list char * mf2))) (signs : list char)
  (word : str -> value -> Prop) (u r : str) : Prop :=
  exists u0 sp a w, u = u0 ++ 40 :: sp ++ w /\ Forall space_char sp
    /\ grouped_spells ls signs word 0 a w /\ forall t, r <> 41 :: t.
