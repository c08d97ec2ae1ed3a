(** Specification vocabulary for unevaluated arguments. *)

From Coq Require Import ZArith List Bool.
From Verif Require Import Base Deep Lazy.
Import ListNotations.
Open Scope Z_scope.

(** [x] is [a], evaluated or not. *)
Definition stands_for {A} (x : lazy A) (a : A) : Prop := x = Now a \/ x = Later a.

(** The outcome a class describes, whichever of its members are evaluated. *)
Inductive means : result -> outcome -> Prop :=
| means_accept : forall r x s y p,
    stands_for x s -> stands_for y p -> means (CAccept r x y) (Accept r s p)
| means_reject : forall m y p, stands_for y p -> means (CReject m y) (Reject m p)
| means_illformed : means CIllformed Illformed
| means_out_of_fuel : means COutOfFuel OutOfFuel.

(** A class all whose members are evaluated. *)
Inductive is_value : result -> Prop :=
| value_accept : forall r s p, is_value (CAccept r (Now s) (Now p))
| value_reject : forall m p, is_value (CReject m (Now p))
| value_illformed : is_value CIllformed
| value_out_of_fuel : is_value COutOfFuel.

(** The parsers an expression applies to the very position it is given, before
    anything is consumed. *)
Definition first (e : pexpr) : list pexpr :=
  match e with
  | PNative _ | PRef _ | PReturn _ | PFail _ | POneChar | PEmpty _
  | PKeyword _ _ | POneOfC _ | POneCharExceptC _ => []
  | PAcceptWhen p _ _ | PChangeErrorMessage p _ | PTransform p _
  | PTransformError p _ | PTransformErrorMessage p _ | PAlways p _
  | PLookAhead p | POptional p _ | PExcept p _ _ | PIf p _ _
  | PFailAtFirstCharExpected p | PFoldl p _ _ | PFoldl1 p _ _
  | PFoldlRejectIncomplete p _ _ | PFoldlRejectIncomplete1 p _ _
  | PFoldr p _ _ | PFoldr1 p _ _ | PFoldrRejectIncomplete p _ _
  | PFoldrRejectIncomplete1 p _ _ | PIterate p _ | PEntireInput p _ => [p]
  | PFoldlStartWithParser _ sp _ | PFoldlRejectIncompleteStartWithParser _ sp _ => [sp]
  | PFoldrStartWithParser p sp _ => [p; sp]
  | POneOf l => l
  | PSequence l | PSequenceApply _ l | PNthOf _ l | PFirstOf l | PLastOf l =>
      match l with [] => [] | p :: _ => [p] end
  | PMiddleOf p _ _ => [p]
  end.

(** ... directly or through such parsers *)
Inductive starts_with (env : program) : pexpr -> pexpr -> Prop :=
| starts_here : forall e, starts_with env e e
| starts_first : forall e c d, In c (first e) -> starts_with env c d -> starts_with env e d
| starts_ref : forall k d, starts_with env (env k) d -> starts_with env (PRef k) d.

(** No [fail_at_first_char_expected] is applied to the position given to [e]. *)
Definition no_position_test (env : program) (e : pexpr) : Prop :=
  forall p, ~ starts_with env e (PFailAtFirstCharExpected p).

(** The parsers that put the position they are given into their result as it is. *)
Inductive hands_on : pexpr -> Prop :=
| hands_empty : forall r, hands_on (PEmpty r)
| hands_optional : forall p d, hands_on (POptional p d)
| hands_except : forall p v m, hands_on (PExcept p v m).
