(** Templates of benchmarks and what is plotted for them. *)

From Coq Require Import ZArith List Bool Permutation.
From Verif Require Import Base Spec SpecBenchmark SpecGenerate.
Import ListNotations.
Open Scope Z_scope.

(** ** Texts *)

(** The lines of a text, ended by a line feed, a carriage return or both. *)
Definition in_one_line (l : str) : Prop := ~ In 10 l /\ ~ In 13 l.
Inductive text_lines : str -> list str -> Prop :=
| lines_none : text_lines [] []
| lines_last l : in_one_line l -> l <> [] -> text_lines l [l]
| lines_lf l s ls : in_one_line l -> text_lines s ls -> text_lines (l ++ 10 :: s) (l :: ls)
| lines_crlf l s ls : in_one_line l -> text_lines s ls -> text_lines (l ++ 13 :: 10 :: s) (l :: ls)
| lines_cr l s ls : in_one_line l -> not_starting_with (fun c => c = 10) s -> text_lines s ls ->
    text_lines (l ++ 13 :: s) (l :: ls).

Definition blank_char (c : char) : Prop := c = 32 \/ c = 9.
Definition blanks (w : str) : Prop := Forall blank_char w.
Definition number_text (d : str) : Prop := d <> [] /\ Forall (fun c => 48 <= c <= 57) d.

(** [// n in [a..b), step s] *)
Definition range_line (l : str) (r : Z * Z * Z) : Prop :=
  exists w1 w2 w3 w4 w5 w6 w7 d1 d2 d3,
    l = w1 ++ text "//" ++ w2 ++ text "n" ++ w3 ++ text "in" ++ w4 ++ text "[" ++ d1 ++ text ".."
        ++ d2 ++ text ")," ++ w5 ++ text "step" ++ w6 ++ d3 ++ w7
    /\ Forall blanks [w1; w2; w3; w4; w5; w6; w7] /\ w3 <> [] /\ w5 <> [] /\ w6 <> []
    /\ Forall number_text [d1; d2; d3] /\ r = (decimal d1, decimal d2, decimal d3).

(** [// name: v] *)
Definition property_line (name l v : str) : Prop :=
  exists w1 w2 w3, l = w1 ++ text "//" ++ w2 ++ name ++ text ":" ++ w3 ++ v
    /\ Forall blanks [w1; w2; w3] /\ not_starting_with blank_char v.

(** The first of the lines with the form [P] says [v]. *)
Definition first_says {A : Type} (P : str -> A -> Prop) (ls : list str) (v : A) : Prop :=
  exists ls1 l ls2, ls = ls1 ++ l :: ls2 /\ P l v /\ Forall (fun k => forall u, ~ P k u) ls1.

(** The numbers from [a] below [b] in steps of [s] *)
Inductive stepping (b s : Z) : Z -> list Z -> Prop :=
| stepping_end a : b <= a -> stepping b s a []
| stepping_more a ns : a < b -> stepping b s (a + s) ns -> stepping b s a (a :: ns).

(** ** Templates *)

(** The ways strings are made *)
Inductive way : Set := Macro | Manual.
Definition way_name (w : way) : str :=
  match w with Macro => text "BOOST_METAPARSE_STRING" | Manual => text "manual" end.
Definition way_id (w : way) : str := match w with Macro => text "bmp" | Manual => text "man" end.
Definition way_description (w : way) : str :=
  match w with
  | Macro => text "Using BOOST_METAPARSE_STRING"
  | Manual => text "Generating strings manually"
  end.

(** What the comments at the beginning of a template say *)
Record heading := {
  h_numbers : list Z;
  h_ways : list way;
  h_label : str;
  h_desc : str
}.

(** [manual, BOOST_METAPARSE_STRING], say *)
Definition names_ways (v : str) (ws : list way) : Prop :=
  exists ps, v = separated [44] ps /\ ps <> [] /\ Forall (fun p => ~ In 44 p) ps
    /\ Forall2 (fun p w => trim p = way_name w) ps ws.

Definition says (content : str) (h : heading) : Prop :=
  exists ls, text_lines content ls
    /\ (exists a b s, first_says range_line ls (a, b, s) /\ 0 < s /\ stepping b s a (h_numbers h))
    /\ (exists v, first_says (property_line (text "modes")) ls v /\ names_ways v (h_ways h))
    /\ first_says (property_line (text "x_axis_label")) ls (h_label h)
    /\ first_says (property_line (text "desc")) ls (h_desc h).

(** ** Files and diagrams *)

(** The file for the number [n] *)
Definition source_file (name : str) (n : Z) (id : str) : str :=
  name ++ text "_" ++ print_number n ++ text "_" ++ id ++ text ".cpp".

Definition source_files (name : str) (h : heading) : list str :=
  flat_map (fun n => map (fun w => source_file name n (way_id w)) (h_ways h)) (h_numbers h).

(** The names that can be confused with the modes *)
Definition plain_name (name : str) : Prop := ~ occurs (text "bmp") name /\ ~ occurs (text "slt") name.

(** A curve: a legend and its points *)
Definition curve : Type := str * list (Z * Z).

(** The measurements [m] of the files of one mode *)
Definition curve_of (m : str -> Z) (name : str) (h : heading) (id legend : str) : curve :=
  (legend, map (fun n => (n, m (source_file name n id))) (h_numbers h)).

Definition way_curve (m : str -> Z) (name : str) (h : heading) (w : way) : curve :=
  curve_of m name h (way_id w) (way_description w).

Definition literal_legend : str := text "Using BOOST_METAPARSE_STRING with string literal templates".

(** The curves of a benchmark: for every way of making strings the measurements [m],
    and for the macro the measurements [m'] with string literal templates *)
Definition curves_with (m m' : str -> Z) (name : str) (h : heading) : list curve :=
  map (way_curve m name h) (h_ways h)
  ++ flat_map (fun w => match w with Macro => [curve_of m' name h (way_id Macro) literal_legend] | Manual => [] end)
       (h_ways h).

(** Two dictionaries of dictionaries with the same contents, in any order *)
Definition same_files (fs fs' : list (str * list (str * str))) : Prop :=
  exists gs, Permutation fs gs
    /\ Forall2 (fun a b => fst a = fst b /\ Permutation (snd a) (snd b)) gs fs'.

(** What is printed in the given number of rounds: never more than there is to do,
    and finally all of it *)
Definition progress (rounds : nat) (total : Z) (printed : list (Z * Z)) : Prop :=
  length printed = rounds /\ Forall (fun p => fst p <= snd p) printed
  /\ (rounds <> O -> last printed (0, 0) = (total, total)).
