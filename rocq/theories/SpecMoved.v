(** Error messages at two places. *)

From Coq Require Import ZArith List Bool.
From Verif Require Import Base Deep Spec SpecDeep.
Import ListNotations.
Open Scope Z_scope.

(** [m1] and [m2] are the same messages for the text [s] starting at [ps1] and
    at [ps2]: the positions mentioned in [unpaired] messages are reached by
    reading the same prefix of the text, everything else is equal. *)
Inductive moved (s : str) (ps1 ps2 : pos) : msg -> msg -> Prop :=
| moved_same : forall m, moved s ps1 ps2 m m
| moved_unpaired : forall w q1 q2 m1 m2, prefix w s -> walk ps1 w q1 -> walk ps2 w q2 ->
    moved s ps1 ps2 m1 m2 ->
    moved s ps1 ps2 (unpaired (line q1) (col q1) m1) (unpaired (line q2) (col q2) m2).

(** The same outcome at two places, error messages included. *)
Definition same_all (s : str) (ps1 ps2 : pos) (o1 o2 : outcome) : Prop :=
  same_at s ps1 ps2 o1 o2
  /\ match o1, o2 with
     | Reject m1 _, Reject m2 _ => moved s ps1 ps2 m1 m2
     | _, _ => True
     end.

(** The parts written by the user do not look at positions, neither at those
    they are given nor at those in error messages. *)
Definition position_blind (e : pexpr) : Prop :=
  match e with
  | PNative p => forall s ps1 ps2, same_all s ps1 ps2 (p s ps1) (p s ps2)
  | PTransformError _ f => forall s ps1 ps2 q1 q2 m1 m2, moved s ps1 ps2 m1 m2 ->
      exists m1' m2', f m1 q1 = Reject m1' q1 /\ f m2 q2 = Reject m2' q2
        /\ moved s ps1 ps2 m1' m2'
  | PTransformErrorMessage _ f => forall s ps1 ps2 m1 m2, moved s ps1 ps2 m1 m2 ->
      exists m1' m2', f m1 = Some m1' /\ f m2 = Some m2' /\ moved s ps1 ps2 m1' m2'
  | _ => True
  end.
