(** Vocabulary for replacing parts of a parser: stated with the syntax of parser
    expressions (Deep.v) and the rules of SpecRules.v only. *)

From Coq Require Import ZArith List Bool.
From Verif Require Import Base Deep Spec SpecDeep SpecRules.
Import ListNotations.
Open Scope Z_scope.

(** The same combinator applied to the parsers [l]. *)
Definition with_children (e : pexpr) (l : list pexpr) : pexpr :=
  match e, l with
  | PAcceptWhen _ pr m, [p] => PAcceptWhen p pr m
  | PChangeErrorMessage _ m, [p] => PChangeErrorMessage p m
  | PTransform _ f, [p] => PTransform p f
  | PTransformError _ f, [p] => PTransformError p f
  | PTransformErrorMessage _ f, [p] => PTransformErrorMessage p f
  | PAlways _ v, [p] => PAlways p v
  | PLookAhead _, [p] => PLookAhead p
  | POptional _ d, [p] => POptional p d
  | PExcept _ v m, [p] => PExcept p v m
  | PIf _ t f, [p] => PIf p t f
  | PFailAtFirstCharExpected _, [p] => PFailAtFirstCharExpected p
  | PFoldl _ st f, [p] => PFoldl p st f
  | PFoldl1 _ st f, [p] => PFoldl1 p st f
  | PFoldlRejectIncomplete _ st f, [p] => PFoldlRejectIncomplete p st f
  | PFoldlRejectIncomplete1 _ st f, [p] => PFoldlRejectIncomplete1 p st f
  | PFoldr _ st f, [p] => PFoldr p st f
  | PFoldr1 _ st f, [p] => PFoldr1 p st f
  | PFoldrRejectIncomplete _ st f, [p] => PFoldrRejectIncomplete p st f
  | PFoldrRejectIncomplete1 _ st f, [p] => PFoldrRejectIncomplete1 p st f
  | PIterate _ k, [p] => PIterate p k
  | PEntireInput _ m, [p] => PEntireInput p m
  | PFoldlStartWithParser _ _ f, [p; sp] => PFoldlStartWithParser p sp f
  | PFoldlRejectIncompleteStartWithParser _ _ f, [p; sp] =>
      PFoldlRejectIncompleteStartWithParser p sp f
  | PFoldrStartWithParser _ _ f, [p; sp] => PFoldrStartWithParser p sp f
  | POneOf _, _ => POneOf l
  | PSequence _, _ => PSequence l
  | PSequenceApply t _, _ => PSequenceApply t l
  | PNthOf k _, _ => PNthOf k l
  | PFirstOf _, _ => PFirstOf l
  | PLastOf _, _ => PLastOf l
  | PMiddleOf _ _ _, [p1; p2; p3] => PMiddleOf p1 p2 p3
  | _, _ => e
  end.

(** [e'] is [e] with some of its parts [a] replaced by parts [b], [R a b]
    holding of every replacement. *)
Inductive replaced (R : pexpr -> pexpr -> Prop) : pexpr -> pexpr -> Prop :=
| replaced_here a b : R a b -> replaced R a b
| replaced_inside e l : Forall2 (replaced R) (children e) l ->
    replaced R e (with_children e l).

(** The same with the definitions of a program. *)
Definition replaced_program (R : pexpr -> pexpr -> Prop) (env env' : program) : Prop :=
  forall k, replaced R (env k) (env' k).

(** In the program [env], every result of [a] is a result of [b]. *)
Definition refines (sd : std) (env : program) (a b : pexpr) : Prop :=
  forall s ps o, gives sd env a s ps o -> gives sd env b s ps o.

(** In the program [env], [a] and [b] have the same results. *)
Definition same_results (sd : std) (env : program) (a b : pexpr) : Prop :=
  forall s ps o, gives sd env a s ps o <-> gives sd env b s ps o.

(** The same in every program. *)
Definition equivalent (sd : std) (a b : pexpr) : Prop :=
  forall env, same_results sd env a b.
