(** Specification vocabulary for the benchmark tools; nothing of Benchmark.v but
    the type of directory trees is used. *)

From Coq Require Import ZArith List Bool.
From Verif Require Import Base Spec Benchmark.
Import ListNotations.
Open Scope Z_scope.

(** ** C++ literals *)

(** [\e] denotes the character [c]. *)
Inductive escape : char -> char -> Prop :=
| esc_quote : escape 34 34
| esc_apostrophe : escape 39 39
| esc_backslash : escape 92 92
| esc_newline : escape 110 10
| esc_return : escape 114 13
| esc_tab : escape 116 9.

(** The value of a hexadecimal digit. *)
Inductive hex_digit : char -> Z -> Prop :=
| hex_decimal d : 0 <= d <= 9 -> hex_digit (48 + d) d
| hex_lower d : 10 <= d <= 15 -> hex_digit (97 + (d - 10)) d
| hex_upper d : 10 <= d <= 15 -> hex_digit (65 + (d - 10)) d.

(** The number a sequence of hexadecimal digits denotes, after [v]. *)
Inductive hex_number : Z -> str -> Z -> Prop :=
| hex_end v : hex_number v [] v
| hex_more v c d w n : hex_digit c d -> hex_number (16 * v + d) w n ->
    hex_number v (c :: w) n.

(** The text between the quotes of a string literal and the characters it
    denotes; a hexadecimal escape takes all digits that follow. *)
Inductive string_body : str -> list char -> Prop :=
| body_end : string_body [] []
| body_plain c w cs : c <> 34 -> c <> 92 -> c <> 10 -> string_body w cs ->
    string_body (c :: w) (c :: cs)
| body_escape e c w cs : escape e c -> string_body w cs ->
    string_body (92 :: e :: w) (c :: cs)
| body_hex ds n w cs : ds <> [] -> hex_number 0 ds n ->
    not_starting_with (fun c => exists d, hex_digit c d) w -> string_body w cs ->
    string_body (92 :: 120 :: ds ++ w) (n :: cs).

(** A character literal and the character it denotes. *)
Inductive char_literal : str -> char -> Prop :=
| lit_plain c : c <> 39 -> c <> 92 -> c <> 10 -> char_literal [39; c; 39] c
| lit_escape e c : escape e c -> char_literal [39; 92; e; 39] c
| lit_hex ds n : ds <> [] -> hex_number 0 ds n ->
    char_literal (39 :: 92 :: 120 :: ds ++ [39]) n.

(** A list of template arguments. *)
Inductive arguments : str -> list char -> Prop :=
| args_none : arguments [] []
| args_one w c : char_literal w c -> arguments w [c]
| args_more w c v d cs : char_literal w c -> arguments v (d :: cs) ->
    arguments (w ++ 44 :: v) (c :: d :: cs).

(** [BOOST_METAPARSE_STRING("...")] and [::boost::metaparse::string<...>]: a text
    and the characters of the string. *)
Definition macro_string (w : str) (cs : list char) : Prop :=
  exists b, w = text "BOOST_METAPARSE_STRING(""" ++ b ++ text """)" /\ string_body b cs.
Definition template_string (w : str) (cs : list char) : Prop :=
  exists b, w = text "::boost::metaparse::string<" ++ b ++ text ">" /\ arguments b cs.

(** The same without hexadecimal escapes and unescaped apostrophes. *)
Inductive simple_body : str -> list char -> Prop :=
| simple_end : simple_body [] []
| simple_plain c w cs : c <> 34 -> c <> 39 -> c <> 92 -> c <> 10 -> simple_body w cs ->
    simple_body (c :: w) (c :: cs)
| simple_escape e c w cs : escape e c -> simple_body w cs ->
    simple_body (92 :: e :: w) (c :: cs).
Definition simple_macro_string (w : str) (cs : list char) : Prop :=
  exists b, w = text "BOOST_METAPARSE_STRING(""" ++ b ++ text """)" /\ simple_body b cs.

(** ** Source files *)

(** [w] occurs in [s]. *)
Definition occurs (w s : str) : Prop := exists a b, s = a ++ w ++ b.

(** A text without strings. *)
Definition no_string (s : str) : Prop :=
  ~ occurs (text "BOOST_METAPARSE_STRING(""") s.

(** [source lit l tail s]: the file [s] consists of the texts and strings [l] and
    the text [tail], the strings being written in the way [lit]. *)
Inductive source (lit : str -> list char -> Prop) :
  list (str * list char) -> str -> str -> Prop :=
| source_end tail : no_string tail -> source lit [] tail tail
| source_string before w cs l tail s : no_string before -> lit w cs ->
    source lit l tail s ->
    source lit ((before, cs) :: l) tail (before ++ w ++ s).

(** ** Statistics *)

(** The characters of all files below [p]. *)
Fixpoint contents (p : path) : str :=
  match p with
  | File s => s
  | Dir l => flat_map contents l
  | Other => []
  end.

(** How often [c] occurs in [s]. *)
Definition occurrences (c : char) (s : str) : nat := count_occ Z.eq_dec s c.

(** What the dictionary [m] says about [c]: 0 if it does not contain it. *)
Definition entry (m : list (char * Z)) (c : char) (n : Z) : Prop :=
  In (c, n) m \/ (n = 0 /\ forall k, ~ In (c, k) m).

(** A dictionary of numbers of occurrences. *)
Definition counts (m : list (char * Z)) : Prop :=
  NoDup (map fst m) /\ forall c n, In (c, n) m -> 0 <= n.

Definition total (m : list (char * Z)) : Z := fold_right Z.add 0 (map snd m).

(** The numbers 0, 1, ..., n - 1. *)
Definition numbers_below (n : Z) : list Z := map Z.of_nat (seq 0 (Z.to_nat n)).

(** ** Durations *)

(** The number of seconds a list of (number, seconds per unit) adds up to. *)
Definition seconds (l : list (Z * Z)) : Z :=
  fold_right (fun p a => fst p * snd p + a) 0 l.

(** The unit [w] means [u] seconds when the number before it is [n]. *)
Inductive unit_word (n : Z) : str -> Z -> Prop :=
| unit_one w u : n = 1 -> In (w, u) [(text "week", 604800); (text "day", 86400);
    (text "hour", 3600); (text "minute", 60); (text "second", 1)] -> unit_word n w u
| unit_many w u : 1 < n -> In (w, u) [(text "weeks", 604800); (text "days", 86400);
    (text "hours", 3600); (text "minutes", 60); (text "seconds", 1)] -> unit_word n w u.

(** A text such as "3 hours 1 minute" and its numbers and units. *)
Inductive duration : str -> list (Z * Z) -> Prop :=
| duration_none : duration [] []
| duration_last ds n w u : Forall digit_char ds -> decimal ds = n -> unit_word n w u ->
    duration (ds ++ 32 :: w) [(n, u)]
| duration_more ds n w u t p l : Forall digit_char ds -> decimal ds = n ->
    unit_word n w u -> duration t (p :: l) ->
    duration (ds ++ 32 :: w ++ 32 :: t) ((n, u) :: p :: l).

(** Larger units come first; the numbers of all but weeks are at most what the next
    unit is made of. *)
Fixpoint proper (l : list (Z * Z)) : Prop :=
  match l with
  | [] => True
  | (n, u) :: l' => 1 <= n
      /\ (u = 604800 \/ (u = 86400 /\ n <= 7) \/ (u = 3600 /\ n <= 24)
          \/ (u = 60 /\ n <= 60) \/ (u = 1 /\ n <= 60))
      /\ Forall (fun p => snd p < u) l' /\ proper l'
  end.
