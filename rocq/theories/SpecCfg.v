(** The context-free language of a grammar: choice without order, repetition of any
    length, predicates left out; and the LL(1) condition. *)

From Coq Require Import ZArith List Bool.
From Verif Require Import Base Spec SpecPeg.
Import ListNotations.
Open Scope Z_scope.

Section Language.
Variable rules : nat -> parsing_expression.

(** [derives g w]: the word [w] is in the language of [g]. *)
Inductive derives : parsing_expression -> str -> Prop :=
| d_eps : derives FEps []
| d_class P c : P c = true -> derives (FClass P) [c]
| d_seq a b u v : derives a u -> derives b v -> derives (FSeq a b) (u ++ v)
| d_alt_left a b w : derives a w -> derives (FAlt a b) w
| d_alt_right a b w : derives b w -> derives (FAlt a b) w
| d_star_nil a : derives (FStar a) []
| d_star_more a u v : derives a u -> derives (FStar a) v -> derives (FStar a) (u ++ v)
| d_not a : derives (FNot a) []
| d_name k w : derives (rules k) w -> derives (FName k) w.

Definition nullable (g : parsing_expression) : Prop := derives g [].
(** The characters the words of [g] begin with. *)
Definition first (g : parsing_expression) (c : char) : Prop := exists w, derives g (c :: w).

Definition apart (P Q : char -> Prop) : Prop := forall c, P c -> Q c -> False.

(** One character decides: [F] are the characters that may follow [g], [follow k]
    those that may follow the name [k].  An alternative that may be empty is the
    last one, as the first one that succeeds is taken. *)
Variable follow : nat -> char -> Prop.
Fixpoint one_decides (g : parsing_expression) (F : char -> Prop) : Prop :=
  match g with
  | FEps | FFail | FClass _ => True
  | FSeq a b => one_decides a (fun c => first b c \/ nullable b /\ F c) /\ one_decides b F
  | FAlt a b => ~ nullable a /\ apart (first a) (first b)
      /\ (nullable b -> apart (first a) F)
      /\ one_decides a F /\ one_decides b F
  | FStar a => ~ nullable a /\ apart (first a) F
      /\ one_decides a (fun c => first a c \/ F c)
  | FNot _ => False
  | FName k => forall c, F c -> follow k c
  end.
Definition ll1_grammar : Prop := forall k, one_decides (rules k) (follow k).

(** The names a parser of [g] comes to before it has read anything. *)
Fixpoint leads_to (g : parsing_expression) (k : nat) : Prop :=
  match g with
  | FEps | FFail | FClass _ => False
  | FSeq a b => leads_to a k \/ nullable a /\ leads_to b k
  | FAlt a b => leads_to a k \/ leads_to b k
  | FStar a | FNot a => leads_to a k
  | FName j => k = j
  end.
Definition no_left_recursion (rank : nat -> nat) : Prop :=
  forall k j, leads_to (rules k) j -> (rank j < rank k)%nat.

(** Repetitions of something that is never empty. *)
Fixpoint stars_read (g : parsing_expression) : Prop :=
  match g with
  | FSeq a b | FAlt a b => stars_read a /\ stars_read b
  | FStar a => ~ nullable a /\ stars_read a
  | FNot a => stars_read a
  | _ => True
  end.

(** The text goes on with one of the characters [F] or ends. *)
Definition goes_on_with (F : char -> Prop) (s : str) : Prop :=
  match s with [] => True | c :: _ => F c end.
End Language.

(** The same grammar but for the order of alternatives. *)
Inductive reordered : parsing_expression -> parsing_expression -> Prop :=
| ro_same g : reordered g g
| ro_swap a a' b b' : reordered a a' -> reordered b b' -> reordered (FAlt a b) (FAlt b' a')
| ro_alt a a' b b' : reordered a a' -> reordered b b' -> reordered (FAlt a b) (FAlt a' b')
| ro_seq a a' b b' : reordered a a' -> reordered b b' -> reordered (FSeq a b) (FSeq a' b')
| ro_star a a' : reordered a a' -> reordered (FStar a) (FStar a')
| ro_not a a' : reordered a a' -> reordered (FNot a) (FNot a')
| ro_assoc a b c : reordered (FAlt a (FAlt b c)) (FAlt (FAlt a b) c)
| ro_assoc_back a b c : reordered (FAlt (FAlt a b) c) (FAlt a (FAlt b c))
| ro_trans a b c : reordered a b -> reordered b c -> reordered a c.

(** ** The tables of the textbooks *)

(** Which names may be empty and the characters they begin with. *)
Section Tables.
Variable nul_t : nat -> bool.
Variable first_t : nat -> char -> bool.
Fixpoint nullb (g : parsing_expression) : bool :=
  match g with
  | FEps | FStar _ | FNot _ => true
  | FFail | FClass _ => false
  | FSeq a b => nullb a && nullb b
  | FAlt a b => nullb a || nullb b
  | FName k => nul_t k
  end.
Fixpoint firstb (g : parsing_expression) (c : char) : bool :=
  match g with
  | FEps | FFail | FNot _ => false
  | FClass P => P c
  | FSeq a b => firstb a c || nullb a && firstb b c
  | FAlt a b => firstb a c || firstb b c
  | FStar a => firstb a c
  | FName k => first_t k c
  end.
(** The tables contain what the rules say. *)
Definition tables_of (rules : nat -> parsing_expression) : Prop :=
  forall k, (nullb (rules k) = true -> nul_t k = true)
    /\ (forall c, firstb (rules k) c = true -> first_t k c = true).

Definition apartb (P Q : char -> bool) : Prop := forall c, P c = true -> Q c = false.
Variable follow_t : nat -> char -> bool.
Fixpoint one_decides_t (g : parsing_expression) (F : char -> bool) : Prop :=
  match g with
  | FEps | FFail | FClass _ => True
  | FSeq a b => one_decides_t a (fun c => firstb b c || nullb b && F c) /\ one_decides_t b F
  | FAlt a b => nullb a = false /\ apartb (firstb a) (firstb b)
      /\ (nullb b = true -> apartb (firstb a) F)
      /\ one_decides_t a F /\ one_decides_t b F
  | FStar a => nullb a = false /\ apartb (firstb a) F
      /\ one_decides_t a (fun c => firstb a c || F c)
  | FNot _ => False
  | FName k => forall c, F c = true -> follow_t k c = true
  end.
Fixpoint leads_tob (g : parsing_expression) (k : nat) : bool :=
  match g with
  | FEps | FFail | FClass _ => false
  | FSeq a b => leads_tob a k || nullb a && leads_tob b k
  | FAlt a b => leads_tob a k || leads_tob b k
  | FStar a | FNot a => leads_tob a k
  | FName j => Nat.eqb k j
  end.
End Tables.
