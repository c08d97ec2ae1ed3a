(** Operators with precedence, stated without reference to the way the parsers of
    expressions are written: operands and operators are read one after the other,
    and the operator that binds least is applied last. *)

From Coq Require Import ZArith List Bool.
From Verif Require Import Base Deep Spec SpecRules SpecChoice.
Import ListNotations.
Open Scope Z_scope.

(** A level: the parser of its operators and the function called with what is on
    the left of an operator and the pair of the operator and what is on the
    right.  Levels are listed from the one that binds least. *)
Definition level : Type := (pexpr * mf2)%type.

(** The parser of the tutorial (8.hpp, 8_1.hpp, 11.hpp): one left fold for every
    level, in which the operands are expressions of the following levels. *)
Fixpoint nested_folds (operand : pexpr) (ls : list level) : pexpr :=
  match ls with
  | [] => operand
  | (op, f) :: ls' =>
      PFoldlStartWithParser (PSequence [op; nested_folds operand ls'])
        (nested_folds operand ls') f
  end.

(** The same with errors for operators without an operand (11_3.hpp). *)
Fixpoint nested_strict_folds (operand : pexpr) (ls : list level) : pexpr :=
  match ls with
  | [] => operand
  | (op, f) :: ls' =>
      PFoldlRejectIncompleteStartWithParser (PSequence [op; nested_strict_folds operand ls'])
        (nested_strict_folds operand ls') f
  end.

(** Operators of one character each, with white space after them. *)
Definition char_operators (cs : list char) : pexpr := POneOf (map (fun c => PToken (PLitC c)) cs).
Definition char_level (l : list char * mf2) : level := (char_operators (fst l), snd l).

(** No character is an operator of two levels. *)
Fixpoint different_characters (ls : list (list char * mf2)) : Prop :=
  match ls with
  | [] => True
  | l :: ls' => (forall c l', In c (fst l) -> In l' ls' -> ~ In c (fst l'))
                /\ different_characters ls'
  end.

(** An operator of the level [k] with the result [o] and the operand [x] after it. *)
Definition operation : Type := (nat * value * value)%type.
Definition level_of (i : operation) : nat := fst (fst i).

(** [value_of ls x items v]: the value of the operand [x] followed by [items] is
    [v].  The operator applied last is the last one of those that bind least. *)
Inductive value_of (ls : list level) : value -> list operation -> value -> Prop :=
| value_operand x : value_of ls x [] x
| value_operator x l1 k o y l2 op f a b v :
    (forall i, In i l1 -> (k <= level_of i)%nat) ->
    (forall i, In i l2 -> (k < level_of i)%nat) ->
    nth_error ls k = Some (op, f) ->
    value_of ls x l1 a -> value_of ls y l2 b -> f a (VSeq [o; b]) = Some v ->
    value_of ls x (l1 ++ (k, o, y) :: l2) v.

Section In_a_program.
Variable sd : std.
Variable env : program.
Variable operand : pexpr.

(** Operators and operands are read in turn. *)
Inductive reads_operations (ls : list level) : str -> pos -> list operation -> str -> pos -> Prop :=
| ro_none s ps : reads_operations ls s ps [] s ps
| ro_more s ps k op f o s1 ps1 x s2 ps2 l s3 ps3 :
    nth_error ls k = Some (op, f) ->
    gives sd env op s ps (Accept o s1 ps1) ->
    gives sd env operand s1 ps1 (Accept x s2 ps2) ->
    reads_operations ls s2 ps2 l s3 ps3 ->
    reads_operations ls s ps ((k, o, x) :: l) s3 ps3.

(** No operator with an operand follows. *)
Definition nothing_follows (ls : list level) (s : str) (ps : pos) : Prop :=
  forall op f, In (op, f) ls ->
    (exists m pe, gives sd env op s ps (Reject m pe))
    \/ exists o s1 ps1 m pe, gives sd env op s ps (Accept o s1 ps1)
         /\ gives sd env operand s1 ps1 (Reject m pe).

(** No operator follows. *)
Definition no_operator_follows (ls : list level) (s : str) (ps : pos) : Prop :=
  forall op f, In (op, f) ls -> exists m pe, gives sd env op s ps (Reject m pe).

(** Operators of different levels are different. *)
Definition different_operators (ls : list level) : Prop :=
  forall j k l1 l2, (j < k)%nat -> nth_error ls j = Some l1 -> nth_error ls k = Some l2 ->
    exclusive sd env (fst l1) (fst l2).

(** Parsers of operators have an outcome on every text. *)
Definition decided (ls : list level) : Prop :=
  forall op f, In (op, f) ls -> forall s ps, exists o, gives sd env op s ps o.

(** Operators are not empty and rejected where they would begin. *)
Definition at_once (ls : list level) : Prop :=
  forall op f, In (op, f) ls -> forall s ps,
    (forall o s' ps', gives sd env op s ps (Accept o s' ps') -> pos_lt ps ps')
    /\ (forall m pe, gives sd env op s ps (Reject m pe) -> pe = ps).

(** There is always a value to go on with. *)
Definition never_void_here (ls : list level) : Prop :=
  (forall s ps v s' ps', gives sd env operand s ps (Accept v s' ps') -> v <> VVoid)
  /\ forall op f a b v, In (op, f) ls -> a <> VVoid -> f a b = Some v -> v <> VVoid.
End In_a_program.
