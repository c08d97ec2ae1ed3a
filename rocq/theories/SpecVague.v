(** Error messages of the two implementations. *)

From Coq Require Import ZArith List Bool.
From Verif Require Import Base Deep Spec SpecDeep.
Import ListNotations.
Open Scope Z_scope.

(** The variadic implementation says [m'] where the C++98 one says [m]: the same,
    or only that no case matched, or only that the input ended, or another index in
    the message of [last_of<>]. *)
Inductive vaguer : msg -> msg -> Prop :=
| vaguer_same m : vaguer m m
| vaguer_no_case m : vaguer m none_of_the_expected_cases_found
| vaguer_end c : vaguer (literal_expected c) unexpected_end_of_input
| vaguer_no_case_end : vaguer none_of_the_expected_cases_found unexpected_end_of_input
| vaguer_last_of : vaguer (index_out_of_range 0 (-1) (-1)) (index_out_of_range 0 (-1) 0)
| vaguer_unpaired l c m m' : vaguer m m' -> vaguer (unpaired l c m) (unpaired l c m').

(** The same outcome but for the message. *)
Definition outcome_vaguer (o o' : outcome) : Prop :=
  match o, o' with
  | Reject m q, Reject m' q' => q = q' /\ vaguer m m'
  | _, _ => o = o'
  end.

(** The functions of the user on errors do not make more of a difference. *)
Definition respects_vaguer (e : pexpr) : Prop :=
  match e with
  | PTransformError _ f => forall m m' q, vaguer m m' -> outcome_vaguer (f m q) (f m' q)
  | PTransformErrorMessage _ f => forall m m', vaguer m m' ->
      match f m, f m' with
      | Some x, Some y => vaguer x y
      | None, None => True
      | _, _ => False
      end
  | _ => True
  end.
