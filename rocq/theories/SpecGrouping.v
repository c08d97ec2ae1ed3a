(** Operators with precedence of which some group to the left and some to the right,
    stated without reference to the way the parsers of expressions are written. *)

From Coq Require Import ZArith List Bool.
From Verif Require Import Base Deep Spec SpecRules SpecChoice SpecPrecedence SpecTutorial.
Import ListNotations.
Open Scope Z_scope.

(** How the operators of a level group, and for operators that group to the left whether
    one without an operand is an error. *)
Inductive grouping : Type := To_left | To_left_strictly | To_right.

(** Levels are listed from the one that binds least.  The function of a level that groups
    to the right is called with what is on the right of an operator and the pair of what
    is on the left and the operator. *)
Definition grouped_level : Type := (grouping * level)%type.

(** The parser of the tutorial (8_1.hpp, 9.hpp, 12.hpp): one fold for every level, in
    which the operands are expressions of the following levels. *)
Fixpoint grouped_folds (operand : pexpr) (ls : list grouped_level) : pexpr :=
  match ls with
  | [] => operand
  | (To_left, (op, f)) :: ls' =>
      PFoldlStartWithParser (PSequence [op; grouped_folds operand ls'])
        (grouped_folds operand ls') f
  | (To_left_strictly, (op, f)) :: ls' =>
      PFoldlRejectIncompleteStartWithParser (PSequence [op; grouped_folds operand ls'])
        (grouped_folds operand ls') f
  | (To_right, (op, f)) :: ls' =>
      PFoldrStartWithParser (PSequence [grouped_folds operand ls'; op])
        (grouped_folds operand ls') f
  end.

(** [grouped_value ls x items v]: the value of the operand [x] followed by [items] is
    [v].  Of the operators that bind least the last one is applied last if they group to
    the left, the first one if they group to the right. *)
Inductive grouped_value (ls : list grouped_level) : value -> list operation -> value -> Prop :=
| gv_operand x : grouped_value ls x [] x
| gv_left x l1 k o y l2 g op f a b v :
    nth_error ls k = Some (g, (op, f)) -> g <> To_right ->
    (forall i, In i l1 -> (k <= level_of i)%nat) ->
    (forall i, In i l2 -> (k < level_of i)%nat) ->
    grouped_value ls x l1 a -> grouped_value ls y l2 b -> f a (VSeq [o; b]) = Some v ->
    grouped_value ls x (l1 ++ (k, o, y) :: l2) v
| gv_right x l1 k o y l2 op f a b v :
    nth_error ls k = Some (To_right, (op, f)) ->
    (forall i, In i l1 -> (k < level_of i)%nat) ->
    (forall i, In i l2 -> (k <= level_of i)%nat) ->
    grouped_value ls x l1 a -> grouped_value ls y l2 b -> f b (VSeq [a; o]) = Some v ->
    grouped_value ls x (l1 ++ (k, o, y) :: l2) v.

(** [operand_missing]: an operand is rejected with the error [m] at [pe], at the beginning
    or after an operator that follows operands and operators in turn. *)
Definition operand_missing (sd : std) (env : program) (operand : pexpr) (ls : list level)
  (s : str) (ps : pos) (m : msg) (pe : pos) : Prop :=
  gives sd env operand s ps (Reject m pe)
  \/ exists x s1 ps1 l s2 ps2 op f o s3 ps3,
       gives sd env operand s ps (Accept x s1 ps1)
       /\ reads_operations sd env operand ls s1 ps1 l s2 ps2
       /\ In (op, f) ls /\ gives sd env op s2 ps2 (Accept o s3 ps3)
       /\ gives sd env operand s3 ps3 (Reject m pe).

(** Operators of one character each, with white space after them. *)
Definition grouped_char_level (l : grouping * (list char * mf2)) : grouped_level :=
  (fst l, char_level (snd l)).

(** Calculating with numbers: the operator is applied to what is on its left and what is
    on its right. *)
Definition numbers_left : mf2 := fun a b =>
  match a, b with
  | VInt x, VSeq [VChar c; VInt y] => option_map VInt (calculate c x y)
  | _, _ => None
  end.
Definition numbers_right : mf2 := fun b a =>
  match b, a with
  | VInt y, VSeq [VInt x; VChar c] => option_map VInt (calculate c x y)
  | _, _ => None
  end.

(** Section 9 of the tutorial: multiplications and divisions group to the right, additions
    and subtractions to the left. *)
Definition section9_levels : list (grouping * (list char * mf2)) :=
  [(To_left, ([43; 45], numbers_left)); (To_right, ([42; 47], numbers_right))].
