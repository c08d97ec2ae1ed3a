(** Formulas with operators of which some group to the left and some to the right, as
    texts and as values: stated without reference to parsers (except for the words). *)

From Coq Require Import ZArith List Bool.
From Verif Require Import Base Util Deep Spec SpecRules SpecPrecedence SpecGrouping SpecFormula.
Import ListNotations.
Open Scope Z_scope.

(** Next to an operator of level [j], the least level that needs no brackets on its left
    and on its right: on one of the two sides operators of the same level can follow. *)
Definition left_side (g : grouping) (j : nat) : nat := match g with To_right => S j | _ => j end.
Definition right_side (g : grouping) (j : nat) : nat := match g with To_right => j | _ => S j end.

Section Table.
Variable ls : list (grouping * (list char * mf2)).
Variable signs : list char.
Variable sign : mf2.
Variable word : str -> value -> Prop.

(** [grouped_spells k a s]: [s] is a text of the formula [a] where an operator of a level
    less than [k] needs brackets. *)
Inductive grouped_spells : nat -> formula -> str -> Prop :=
| gs_word k w v sp : word w v -> Forall space_char sp -> grouped_spells k (FWord w) (w ++ sp)
| gs_op k j g cs f c a b s1 sp s2 :
    nth_error ls j = Some (g, (cs, f)) -> In c cs -> (k <= j)%nat ->
    grouped_spells (left_side g j) a s1 -> Forall space_char sp ->
    grouped_spells (right_side g j) b s2 ->
    grouped_spells k (FOp c a b) (s1 ++ c :: sp ++ s2)
| gs_sign k c a sp s :
    In c signs -> Forall space_char sp -> grouped_spells (length ls) a s ->
    grouped_spells k (FSign c a) (c :: sp ++ s)
| gs_brackets k a sp1 s sp2 :
    Forall space_char sp1 -> grouped_spells 0 a s -> Forall space_char sp2 ->
    grouped_spells k a (40 :: sp1 ++ s ++ 41 :: sp2).

(** The value of a formula.  The functions of levels that group to the right are called
    with the right operand and the pair of the left one and the operator. *)
Inductive grouped_worth : formula -> value -> Prop :=
| gw_word w v : word w v -> grouped_worth (FWord w) v
| gw_left g cs f c a b x y v :
    In (g, (cs, f)) ls -> g <> To_right -> In c cs -> grouped_worth a x -> grouped_worth b y ->
    f x (VSeq [VChar c; y]) = Some v -> grouped_worth (FOp c a b) v
| gw_right cs f c a b x y v :
    In (To_right, (cs, f)) ls -> In c cs -> grouped_worth a x -> grouped_worth b y ->
    f y (VSeq [x; VChar c]) = Some v -> grouped_worth (FOp c a b) v
| gw_sign c a x v :
    In c signs -> grouped_worth a x -> sign x (VChar c) = Some v -> grouped_worth (FSign c a) v.
End Table.

(** A text of a formula with the necessary brackets and no others: [grouping_in ls c] is
    how the level of the operator [c] groups. *)
Definition grouping_in (ls : list (grouping * (list char * mf2))) (c : char) : grouping :=
  match nth_error ls (level_in (map snd ls) c) with
  | Some (g, _) => g
  | None => To_left
  end.
Fixpoint grouped_written (ls : list (grouping * (list char * mf2))) (k : nat) (a : formula) : str :=
  match a with
  | FWord w => w
  | FOp c a b =>
      let j := level_in (map snd ls) c in
      let s := grouped_written ls (left_side (grouping_in ls c) j) a
               ++ c :: grouped_written ls (right_side (grouping_in ls c) j) b in
      if Nat.ltb j k then 40 :: s ++ [41] else s
  | FSign c a => c :: grouped_written ls (length ls) a
  end.
