(** Vocabulary for changing the alternatives of a choice: stated with the syntax
    of parser expressions (Deep.v) and the rules of SpecRules.v only. *)

From Coq Require Import ZArith List Bool.
From Verif Require Import Base Deep Spec SpecDeep SpecRules.
Import ListNotations.
Open Scope Z_scope.

Section In_a_program.
Variable sd : std.
Variable env : program.

(** Whatever [a] results in, [b] results in as well, possibly with another error
    message. *)
Definition refines_but_message (a b : pexpr) : Prop :=
  forall s ps o, gives sd env a s ps o ->
    exists o', gives sd env b s ps o' /\ same_but_message o o'.

(** [a] and [b] have the same results up to the messages: they accept the same
    texts with the same value, remaining text and position and reject the same
    texts at the same position. *)
Definition agree_but_message (a b : pexpr) : Prop :=
  refines_but_message a b /\ refines_but_message b a.

(** [p] accepts the text [s] at [ps]. *)
Definition takes (p : pexpr) (s : str) (ps : pos) : Prop :=
  exists r s' ps', gives sd env p s ps (Accept r s' ps').

(** [p] and [q] never accept the same text. *)
Definition exclusive (p q : pexpr) : Prop :=
  forall s ps, takes p s ps -> ~ takes q s ps.

(** [p] never goes back: where it ends and what it complains about is not before
    the place where it was started. *)
Definition goes_ahead (p : pexpr) : Prop :=
  (forall s ps r s' ps', gives sd env p s ps (Accept r s' ps') -> pos_le ps ps')
  /\ (forall s ps m pe, gives sd env p s ps (Reject m pe) -> pos_le ps pe).

(** Changes of a choice. *)
Inductive choice_law : pexpr -> pexpr -> Prop :=
(** alternatives that never accept the same text can change places *)
| cl_swap l1 p q l2 : exclusive p q ->
    choice_law (POneOf (l1 ++ p :: q :: l2)) (POneOf (l1 ++ q :: p :: l2))
(** an alternative need not be written again *)
| cl_again l1 p l2 l3 :
    choice_law (POneOf (l1 ++ p :: l2 ++ p :: l3)) (POneOf (l1 ++ p :: l2 ++ l3))
(** [fail] is no alternative *)
| cl_fail l1 m l2 : choice_law (POneOf (l1 ++ PFail m :: l2)) (POneOf (l1 ++ l2))
(** choices in choices can be flattened *)
| cl_nested l1 l2 l3 :
    choice_law (POneOf (l1 ++ POneOf l2 :: l3)) (POneOf (l1 ++ l2 ++ l3))
(** a choice of one is no choice *)
| cl_single p : goes_ahead p -> choice_law (POneOf [p]) p
(** a common beginning can be moved out of the alternatives *)
| cl_factor_sequence a bs : bs <> [] ->
    goes_ahead a -> (forall b, In b bs -> goes_ahead b) ->
    choice_law (POneOf (map (fun b => PSequence [a; b]) bs)) (PSequence [a; POneOf bs])
| cl_factor_last a bs : bs <> [] ->
    goes_ahead a -> (forall b, In b bs -> goes_ahead b) ->
    choice_law (POneOf (map (fun b => PLastOf [a; b]) bs)) (PLastOf [a; POneOf bs])
| cl_factor_first a bs : bs <> [] ->
    goes_ahead a -> (forall b, In b bs -> goes_ahead b) ->
    choice_law (POneOf (map (fun b => PFirstOf [a; b]) bs)) (PFirstOf [a; POneOf bs]).
End In_a_program.

(** ** Keywords with their results *)

Definition keyword_of (k : str * value) : pexpr := PKeyword (fst k) (snd k).

(** No keyword is the beginning of a later one. *)
Fixpoint longer_first (ks : list (str * value)) : Prop :=
  match ks with
  | [] => True
  | k :: ks' => (forall k', In k' ks' -> ~ prefix (fst k) (fst k')) /\ longer_first ks'
  end.
