(** The languages of the smaller examples.  Only the types of Base.v and the
    vocabulary of Spec.v and SpecCalc.v are used. *)

From Coq Require Import ZArith List Bool.
From Verif Require Import Base Spec SpecCalc.
Import ListNotations.
Open Scope Z_scope.

(** ** Rational numbers *)

Definition number (ds : str) : Prop := ds <> [] /\ Forall digit_char ds.

(** A whole number, or a numerator, a slash and a denominator; each number may be
    followed by whitespace. *)
Inductive fraction_text : str -> Z -> Z -> Prop :=
| ft_fraction : forall ds w ds' w', number ds -> Forall space_char w ->
    number ds' -> Forall space_char w' ->
    fraction_text (ds ++ w ++ 47 :: ds' ++ w') (decimal ds) (decimal ds').
Inductive rational_text : str -> Z -> Z -> Prop :=
| rt_whole : forall ds w, number ds -> Forall space_char w -> rational_text (ds ++ w) (decimal ds) 1
| rt_fraction : forall s a b, fraction_text s a b -> rational_text s a b.

(** [s] starts with the number [ds] and whitespace [w], [t] follows; no more
    digits or whitespace can be taken from [t]. *)
Definition leading_number (ds w t s : str) : Prop :=
  s = ds ++ w ++ t /\ number ds /\ Forall space_char w
  /\ not_starting_with digit_char (w ++ t) /\ not_starting_with space_char t.

(** One of the numbers read is not an [int]. *)
Definition number_too_large (s : str) : Prop :=
  exists ds w t, leading_number ds w t s
    /\ (~ is_int (decimal ds)
        \/ exists ds' w' t' u, t = 47 :: u /\ leading_number ds' w' t' u /\ ~ is_int (decimal ds')).

(** ** Binary numbers *)

Definition bit_char (c : char) : Prop := c = 48 \/ c = 49.

Inductive binary_text : str -> Z -> Prop :=
| bt_one : forall c, bit_char c -> binary_text [c] (c - 48)
| bt_more : forall s z c, binary_text s z -> bit_char c -> binary_text (s ++ [c]) (2 * z + (c - 48)).

(** ** a* b* a* *)

(** [s] is [i] times a, [j] times b and [k] times a, and what follows; the first
    run is the longest possible, and so are the others. *)
Definition aba (i j k : nat) (rest s : str) : Prop :=
  s = repeat 97 i ++ repeat 98 j ++ repeat 97 k ++ rest
  /\ (j = O -> k = O)
  /\ not_starting_with (fun c => c = 97) rest
  /\ (k = O -> not_starting_with (fun c => c = 98) rest).

(** ** Regular expressions *)

(** What a regular expression matches, one after the other. *)
Inductive pattern : Set := Any | Char (c : char).

Definition special (c : char) : Prop := c = 46 \/ c = 40 \/ c = 41.

Inductive simple_pattern : char -> pattern -> Prop :=
| sp_any : simple_pattern 46 Any
| sp_char : forall c, ~ special c -> simple_pattern c (Char c).

(** Groups are not empty and not nested. *)
Inductive regexp_text : str -> list pattern -> Prop :=
| rx_nil : regexp_text [] []
| rx_simple : forall c a s l, simple_pattern c a -> regexp_text s l -> regexp_text (c :: s) (a :: l)
| rx_group : forall g ps s l, g <> [] -> Forall2 simple_pattern g ps -> regexp_text s l ->
    regexp_text (40 :: g ++ 41 :: s) (ps ++ l).

(** The grammar of the comment in example/regexp/main.cpp: groups contain
    regular expressions. *)
Inductive documented_regexp : str -> list pattern -> Prop :=
| dr_nil : documented_regexp [] []
| dr_simple : forall c a s l, simple_pattern c a -> documented_regexp s l ->
    documented_regexp (c :: s) (a :: l)
| dr_group : forall g ps s l, documented_regexp g ps -> documented_regexp s l ->
    documented_regexp (40 :: g ++ 41 :: s) (ps ++ l).

Definition pattern_matches (a : pattern) (c : char) : Prop :=
  match a with Any => True | Char d => c = d end.
Definition matches (l : list pattern) (s : str) : Prop := Forall2 pattern_matches l s.

(** ** Limits *)

Definition rational_fits (cfg : config) : Prop := (2 < limit_sequence cfg)%nat /\ fits_one_of cfg 2.
Definition regexp_fits (cfg : config) : Prop :=
  fits_sequence cfg 3 /\ fits_one_of cfg 2 /\ fits_one_char_except cfg 3.

(** [t] starts with a group that is empty, nested or not closed; [g] is what was
    read of it. *)
Definition plain (c : char) : Prop := c <> 40 /\ c <> 41.
Definition broken_group (g t : str) : Prop :=
  exists r, t = 40 :: g ++ r /\ Forall plain g /\ not_starting_with plain r
    /\ (g = [] \/ not_starting_with (fun c => c = 41) r).
