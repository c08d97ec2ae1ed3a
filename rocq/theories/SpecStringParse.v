(** Vocabulary of the claims about parsing strings. *)

From Coq Require Import ZArith List.
From Verif Require Import Base Combinators Deep.
Import ListNotations.
Open Scope Z_scope.

(** The texts a string of the given standard can be parsed from.  In C++98: less
    than LIMIT_STRING_SIZE characters, the last of which does not have the value
    of EOF. *)
Definition parsable (sd : std) (lim : nat) (s : str) : Prop :=
  match sd with
  | Std98 => (forall s', s <> s' ++ [-1]) /\ (length s < lim)%nat
  | Std11 | Std14 => True
  end.

(** The result [o] with the rest of the text represented by [f]. *)
Definition with_rest (f : str -> list Z) (o : outcome) : outcome :=
  match o with
  | Accept r rem ps => Accept r (f rem) ps
  | _ => o
  end.

(** A parser the user wrote does the same with a string as with its characters. *)
Definition same_on_strings (f : str -> list Z) (D : str -> Prop) (p : pfun) : Prop :=
  forall s ps, D s ->
    p (f s) ps = with_rest f (p s ps)
    /\ forall r rem ps', p s ps = Accept r rem ps' -> D rem.

(** An error transformer does not turn an error into a success. *)
Definition keeps_failing (f : msg -> pos -> outcome) : Prop :=
  forall m ps r rem ps', f m ps <> Accept r rem ps'.

(** What is required of an expression: its keywords can be strings, and the
    parts the user wrote treat strings like their characters. *)
Definition string_ready (f : str -> list Z) (D : str -> Prop) (e : pexpr) : Prop :=
  match e with
  | PNative p => same_on_strings f D p
  | PTransformError _ g => keeps_failing g
  | PKeyword kw _ => D kw
  | _ => True
  end.
