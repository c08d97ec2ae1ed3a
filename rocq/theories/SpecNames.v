(** Vocabulary for the names of parsers: stated with the syntax of parser
    expressions (Deep.v), SpecDeep.v and SpecReplace.v only. *)

From Coq Require Import ZArith List Bool.
From Verif Require Import Base Deep Spec SpecDeep SpecRules SpecReplace.
Import ListNotations.
Open Scope Z_scope.

(** The name [k] occurs in [e]. *)
Inductive mentioned (k : nat) : pexpr -> Prop :=
| mentioned_here : mentioned k (PRef k)
| mentioned_inside e c : In c (children e) -> mentioned k c -> mentioned k e.

(** The definition of [k] is needed for [e]: [k] occurs in [e] or in another
    definition that is needed. *)
Inductive needed (env : program) (e : pexpr) : nat -> Prop :=
| needed_now k : mentioned k e -> needed env e k
| needed_by j k : needed env e j -> mentioned k (env j) -> needed env e k.

(** [e] with the names replaced by parsers. *)
Fixpoint with_names (f : nat -> pexpr) (e : pexpr) : pexpr :=
  match e with
  | PRef k => f k
  | PNative _ | PReturn _ | PFail _ | POneChar | PEmpty _
  | PKeyword _ _ | POneOfC _ | POneCharExceptC _ => e
  | PAcceptWhen p pr m => PAcceptWhen (with_names f p) pr m
  | PChangeErrorMessage p m => PChangeErrorMessage (with_names f p) m
  | PTransform p g => PTransform (with_names f p) g
  | PTransformError p g => PTransformError (with_names f p) g
  | PTransformErrorMessage p g => PTransformErrorMessage (with_names f p) g
  | PAlways p v => PAlways (with_names f p) v
  | PLookAhead p => PLookAhead (with_names f p)
  | POptional p d => POptional (with_names f p) d
  | PExcept p v m => PExcept (with_names f p) v m
  | PIf p t g => PIf (with_names f p) t g
  | PFailAtFirstCharExpected p => PFailAtFirstCharExpected (with_names f p)
  | PFoldl p st g => PFoldl (with_names f p) st g
  | PFoldl1 p st g => PFoldl1 (with_names f p) st g
  | PFoldlRejectIncomplete p st g => PFoldlRejectIncomplete (with_names f p) st g
  | PFoldlRejectIncomplete1 p st g => PFoldlRejectIncomplete1 (with_names f p) st g
  | PFoldr p st g => PFoldr (with_names f p) st g
  | PFoldr1 p st g => PFoldr1 (with_names f p) st g
  | PFoldrRejectIncomplete p st g => PFoldrRejectIncomplete (with_names f p) st g
  | PFoldrRejectIncomplete1 p st g => PFoldrRejectIncomplete1 (with_names f p) st g
  | PIterate p k => PIterate (with_names f p) k
  | PEntireInput p m => PEntireInput (with_names f p) m
  | PFoldlStartWithParser p sp g =>
      PFoldlStartWithParser (with_names f p) (with_names f sp) g
  | PFoldlRejectIncompleteStartWithParser p sp g =>
      PFoldlRejectIncompleteStartWithParser (with_names f p) (with_names f sp) g
  | PFoldrStartWithParser p sp g =>
      PFoldrStartWithParser (with_names f p) (with_names f sp) g
  | POneOf l => POneOf (map (with_names f) l)
  | PSequence l => PSequence (map (with_names f) l)
  | PSequenceApply t l => PSequenceApply t (map (with_names f) l)
  | PNthOf k l => PNthOf k (map (with_names f) l)
  | PFirstOf l => PFirstOf (map (with_names f) l)
  | PLastOf l => PLastOf (map (with_names f) l)
  | PMiddleOf p1 p2 p3 =>
      PMiddleOf (with_names f p1) (with_names f p2) (with_names f p3)
  end.

(** Other names. *)
Definition renamed (r : nat -> nat) : pexpr -> pexpr := with_names (fun k => PRef (r k)).

(** Some names replaced by the parsers they stand for. *)
Definition inlined (env : program) : pexpr -> pexpr -> Prop :=
  replaced (fun a b => exists k, a = PRef k /\ b = env k).

(** The parser [e] of the program [env] and the parser [e'] of the program [env']
    are the same up to names: [C] tells which names of the two programs belong
    together, other names stand for what they are defined to be. *)
Inductive same_up_to_names (env env' : program) (C : nat -> nat -> Prop)
  : pexpr -> pexpr -> Prop :=
| names_belong j k : C j k -> same_up_to_names env env' C (PRef j) (PRef k)
| names_inside e l : (forall k, e <> PRef k) ->
    Forall2 (same_up_to_names env env' C) (children e) l ->
    same_up_to_names env env' C e (with_children e l)
| names_left j e' : same_up_to_names env env' C (env j) e' ->
    same_up_to_names env env' C (PRef j) e'
| names_right e k : same_up_to_names env env' C e (env' k) ->
    same_up_to_names env env' C e (PRef k).

(** Names that belong together are defined as parsers that are the same. *)
Definition consistent (env env' : program) (C : nat -> nat -> Prop) : Prop :=
  forall j k, C j k -> same_up_to_names env env' C (env j) (env' k).

(** Without names. *)
Definition nameless : pexpr -> Prop := every (fun e => forall k, e <> PRef k).
