(** Parser expressions without their error messages. *)

From Coq Require Import ZArith List Bool.
From Verif Require Import Base Deep Spec SpecDeep.
Import ListNotations.
Open Scope Z_scope.

(** The message used in place of all others. *)
Definition no_message : msg := unexpected_end_of_input.

(** The expression without its messages: every message written in it becomes
    [no_message], and [transform_error_message] is left out
    ([change_error_message] stays: it also moves the error to the place where
    its argument started). *)
Fixpoint erase (e : pexpr) : pexpr :=
  match e with
  | PFail _ => PFail no_message
  | PAcceptWhen p pr _ => PAcceptWhen (erase p) pr no_message
  | PChangeErrorMessage p _ => PChangeErrorMessage (erase p) no_message
  | PTransformErrorMessage p _ => erase p
  | PExcept p v _ => PExcept (erase p) v no_message
  | PEntireInput p _ => PEntireInput (erase p) no_message
  | PNative _ | PRef _ | PReturn _ | POneChar | PEmpty _
  | PKeyword _ _ | POneOfC _ | POneCharExceptC _ => e
  | PTransform p f => PTransform (erase p) f
  | PTransformError p f => PTransformError (erase p) f
  | PAlways p v => PAlways (erase p) v
  | PLookAhead p => PLookAhead (erase p)
  | POptional p d => POptional (erase p) d
  | PIf p t f => PIf (erase p) t f
  | PFailAtFirstCharExpected p => PFailAtFirstCharExpected (erase p)
  | PFoldl p st f => PFoldl (erase p) st f
  | PFoldl1 p st f => PFoldl1 (erase p) st f
  | PFoldlRejectIncomplete p st f => PFoldlRejectIncomplete (erase p) st f
  | PFoldlRejectIncomplete1 p st f => PFoldlRejectIncomplete1 (erase p) st f
  | PFoldlStartWithParser p sp f => PFoldlStartWithParser (erase p) (erase sp) f
  | PFoldlRejectIncompleteStartWithParser p sp f =>
      PFoldlRejectIncompleteStartWithParser (erase p) (erase sp) f
  | PFoldrStartWithParser p sp f => PFoldrStartWithParser (erase p) (erase sp) f
  | PFoldr p st f => PFoldr (erase p) st f
  | PFoldr1 p st f => PFoldr1 (erase p) st f
  | PFoldrRejectIncomplete p st f => PFoldrRejectIncomplete (erase p) st f
  | PFoldrRejectIncomplete1 p st f => PFoldrRejectIncomplete1 (erase p) st f
  | PIterate p k => PIterate (erase p) k
  | POneOf l => POneOf (map erase l)
  | PSequence l => PSequence (map erase l)
  | PSequenceApply t l => PSequenceApply t (map erase l)
  | PNthOf k l => PNthOf k (map erase l)
  | PFirstOf l => PFirstOf (map erase l)
  | PLastOf l => PLastOf (map erase l)
  | PMiddleOf p1 p2 p3 => PMiddleOf (erase p1) (erase p2) (erase p3)
  end.

(** An error transformer whose outcome does not depend on the message it gets
    (except for the message of the outcome). *)
Definition ignores_message (f : msg -> pos -> outcome) : Prop :=
  forall m m' ps, same_but_message (f m ps) (f m' ps).

(** Nothing in the expression depends on messages: error transformers ignore
    them and functions on messages are defined for all of them.  Parsers
    written by the user are arbitrary. *)
Definition message_blind (e : pexpr) : Prop :=
  natives (fun _ => True) ignores_message e /\ total_messages e.
