(** Bounds on line and column numbers. *)

From Coq Require Import ZArith List Bool.
From Verif Require Import Base Spec.
Import ListNotations.
Open Scope Z_scope.

(** The largest value of an [int] of 32 bits. *)
Definition int_32_max : Z := 2147483647.

(** The counters of [q] when a text is parsed from [ps]: neither goes below
    where it may start, and each character adds at most one to their sum. *)
Definition within (ps : pos) (s : str) (q : pos) : Prop :=
  line ps <= line q /\ 1 <= col q
  /\ line q + col q <= line ps + col ps + Z.of_nat (length s).

(** Both counters are values of an [int] of 32 bits. *)
Definition fits_int (q : pos) : Prop :=
  1 <= line q <= int_32_max /\ 1 <= col q <= int_32_max.
