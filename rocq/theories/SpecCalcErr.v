(** What the calculators should report for texts that are no expressions.  Only
    the types of Base.v and the vocabulary of Spec.v and SpecCalc.v are used. *)

From Coq Require Import ZArith List Bool.
From Verif Require Import Base Spec SpecCalc.
Import ListNotations.
Open Scope Z_scope.

(** The text [u] is the beginning of the text of some expression. *)
Definition calc_prefix (d : dialect) (u : str) : Prop := exists t e, calc_text d e (u ++ t).

(** At the end of [u] an operand is missing: it ends (whitespace aside) with an
    operator, a sign or an opening bracket, or there is nothing before. *)
Definition operand_due (u : str) : Prop :=
  Forall space_char u
  \/ exists u1 c w, u = u1 ++ c :: w /\ (operator_char c \/ c = 40) /\ Forall space_char w.

(** What is wrong between [u] and [r]: an operand is missing; something follows a
    complete expression; or something else than the closing bracket follows the
    complete expression behind an opening bracket, whose line and column are
    reported. *)
Inductive complaint (d : dialect) (missing : msg) (begin : pos) (u r : str) : msg -> Prop :=
| cp_operand : operand_due u -> complaint d missing begin u r missing
| cp_end : forall e, calc_text d e u -> r <> [] -> complaint d missing begin u r end_of_input_expected
| cp_bracket : forall e u1 u2 q, u = u1 ++ 40 :: u2 -> calc_text d e u2 -> walk begin u1 q ->
    complaint d missing begin u r (unpaired (line q) (col q) (literal_expected 41)).

(** [u] can be continued to the text of an expression, but not with the first
    character of [r]; [q] is the position of that character. *)
Definition stuck (prefix : str -> Prop) (begin : pos) (u r : str) (q : pos) : Prop :=
  walk begin u q /\ prefix u /\ forall a r', r = a :: r' -> ~ prefix (u ++ [a]).

(** The first character of [s] that can not be part of an expression text is at
    line [l] and column [c], and [m] says what is wrong there. *)
Definition blames (d : dialect) (missing : msg) (begin : pos) (s : str) (l c : Z) (m : msg) : Prop :=
  exists u r q, s = u ++ r /\ stuck (calc_prefix d) begin u r q /\ l = line q /\ c = col q
    /\ complaint d missing begin u r m.

(** The same for a text that only has to start with an expression, without
    whitespace in front. *)
Definition exp_prefix (d : dialect) (u : str) : Prop :=
  exists t e, starts_with_exp d e (u ++ t) [].

Definition blames_begin (d : dialect) (missing : msg) (begin : pos) (s : str) (m : msg) (q : pos) : Prop :=
  exists u r, s = u ++ r /\ stuck (exp_prefix d) begin u r q
    /\ (m = missing /\ operand_due u
        \/ exists e u1 u2 p, u = u1 ++ 40 :: u2 /\ calc_text d e u2 /\ walk begin u1 p
              /\ m = unpaired (line p) (col p) (literal_expected 41)).

(** Some part of [s] is an expression without a value. *)
Definition has_senseless_part (d : dialect) (s : str) : Prop :=
  exists a b c e, s = a ++ b ++ c /\ calc_text d e b /\ meaningless e.
