(** What the parsers of the user manual (doc/manual.qbk) are said to do. *)

From Coq Require Import ZArith List Bool.
From Verif Require Import Base Spec SpecCalc SpecTutorial.
Import ListNotations.
Open Scope Z_scope.

(** numbers one after the other, as many as there are *)
Inductive number_list : list (option Z) -> str -> str -> Prop :=
| nl_end : forall s, (forall x t, ~ a_number x s t) -> number_list [] s s
| nl_more : forall x l s s1 t, a_number x s s1 -> number_list l s1 t -> number_list (x :: l) s t.

(** their sum; [None]: a number or the sum is no [int] *)
Fixpoint plain_sum (l : list (option Z)) : option Z :=
  match l with
  | [] => Some 0
  | x :: l' => match x, plain_sum l' with Some a, Some b => Some (a + b) | _, _ => None end
  end.
Definition sum_of (l : list (option Z)) : option Z :=
  match plain_sum l with Some z => an_int z | None => None end.

Definition list_sum_reading : reading Z := fun x s t => exists l, number_list l s t /\ x = sum_of l.
(** ... of at least one number *)
Definition list_sum_reading1 : reading Z := fun x s t => exists l, l <> [] /\ number_list l s t /\ x = sum_of l.

(** [+] and a number, as many as there are *)
Definition plus_list_reading : reading Z := fun x s t =>
  exists l, items [43] a_number l s t /\ x = sum_of (map snd l).

(** numbers with [+] between them, as many as there are: their sum *)
Definition plus_exp_reading : reading Z := fun x s t =>
  exists x0 s1 l, a_number x0 s s1 /\ items [43] a_number l s1 t /\ x = sum_of (x0 :: map snd l).

(** a [+] and whitespace, then no number *)
Definition dangling_plus (s t : str) : Prop := op_at [43] 43 s t /\ not_starting_with digit_char t.

(** Operations that are associative and commutative on some values,
    [void], which cannot be a state, not among them. *)
Record sum_like (D : value -> Prop) (f : mf2) : Prop := mksum_like {
  sum_not_void : ~ D VVoid;
  sum_closed : forall a b c, D a -> D b -> f a b = Some c -> D c;
  sum_commutes : forall a b, D a -> D b -> f a b = f b a;
  sum_associates : forall a b c, D a -> D b -> D c ->
    match f a b with Some x => f x c | None => None end
    = match f b c with Some y => f a y | None => None end
}.

(** A parser that rejects only at the place where it starts. *)
Definition rejects_at_once (q : pfun) : Prop := forall s ps m pe, q s ps = Reject m pe -> pe = ps.
