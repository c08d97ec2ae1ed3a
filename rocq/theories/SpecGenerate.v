(** Specification vocabulary for the generator of the tutorial's headers; nothing of
    Generate.v is used. *)

From Coq Require Import ZArith List Bool.
From Verif Require Import Base Messages Spec.
Import ListNotations.
Open Scope Z_scope.

(** ** Lines *)

Fixpoint begins (p s : str) : bool :=
  match p, s with
  | [], _ => true
  | a :: p', b :: s' => (a =? b) && begins p' s'
  | _ :: _, [] => false
  end.

Definition white (c : char) : bool := (c =? 32) || ((9 <=? c) && (c <=? 13)).
Fixpoint skip_white (s : str) : str :=
  match s with
  | [] => []
  | c :: s' => if white c then skip_white s' else s
  end.
(** A text without the whitespace around it. *)
Definition trim (s : str) : str := rev (skip_white (rev (skip_white s))).

(** The lines of a text, without their newlines. *)
Fixpoint lines_of (s : str) : list str :=
  match s with
  | [] => [[]]
  | c :: s' =>
      match lines_of s' with
      | l :: ls => if c =? 10 then [] :: l :: ls else (c :: l) :: ls
      | [] => []
      end
  end.

Definition visible (l : str) : bool := match l with [] => false | _ => true end.
(** Neither empty nor a comment. *)
Definition significant (l : str) : bool := visible l && negb (begins (text "//") l).

(** The lines of a file that matter to the compiler, trimmed. *)
Definition source_lines (t : str) : list str :=
  filter significant (map trim (lines_of t)).

(** ** The preprocessor *)

Definition conditional (l : str) : bool :=
  begins (text "#ifndef ") l || begins (text "#ifdef ") l || begins (text "#endif") l.

Inductive balanced : list str -> Prop :=
| bal_nil : balanced []
| bal_line l ls : conditional l = false -> balanced ls -> balanced (l :: ls)
| bal_if l body ls : begins (text "#ifndef ") l = true \/ begins (text "#ifdef ") l = true ->
    balanced body -> balanced ls -> balanced (l :: body ++ text "#endif" :: ls).

Definition holds (D : list str) (l : str) : Prop :=
  (exists m, l = text "#ifdef " ++ m /\ In m D)
  \/ (exists m, l = text "#ifndef " ++ m /\ ~ In m D).
Definition fails (D : list str) (l : str) : Prop :=
  (exists m, l = text "#ifdef " ++ m /\ ~ In m D)
  \/ (exists m, l = text "#ifndef " ++ m /\ In m D).

(** The arguments: the files that can be included, the macros defined, the lines to
    process, the macros defined after them and the lines left for the compiler. *)
Inductive preprocess (fs : list (str * str)) :
  list str -> list str -> list str -> list str -> Prop :=
| pp_nil D : preprocess fs D [] D []
| pp_line D l ls D' out :
    begins (text "#") l = false \/ begins (text "#include <") l = true ->
    preprocess fs D ls D' out ->
    preprocess fs D (l :: ls) D' (l :: out)
| pp_define D m ls D' out :
    preprocess fs (m :: D) ls D' out ->
    preprocess fs D ((text "#define " ++ m) :: ls) D' out
| pp_include D f t ls D1 D2 out1 out2 :
    ~ In 34 f -> In (f, t) fs ->
    preprocess fs D (source_lines t) D1 out1 ->
    preprocess fs D1 ls D2 out2 ->
    preprocess fs D ((text "#include """ ++ f ++ text """") :: ls) D2 (out1 ++ out2)
| pp_taken D l body ls D1 D2 out1 out2 :
    holds D l -> balanced body ->
    preprocess fs D body D1 out1 ->
    preprocess fs D1 ls D2 out2 ->
    preprocess fs D (l :: body ++ text "#endif" :: ls) D2 (out1 ++ out2)
| pp_skipped D l body ls D' out :
    fails D l -> balanced body ->
    preprocess fs D ls D' out ->
    preprocess fs D (l :: body ++ text "#endif" :: ls) D' out.

(** ** Guides *)

(** A command typed into Metashell: its first line and the lines it continues on,
    without prompts and the backslashes at the end of all but the last one. *)
Definition command : Type := (str * list str)%type.
Definition pieces (c : command) : list str := fst c :: snd c.

(** What a session consists of: commands and the lines Metashell answers with. *)
Inductive item : Type :=
| Command (c : command)
| Answer (l : str).

(** The parts of a guide: lines of text, headings of numbered sections, sessions,
    beginning with a command, and other listings, beginning with something else. *)
Inductive block : Type :=
| Prose (l : str)
| Heading (n : list Z) (title : str)
| Session (c : command) (items : list item)
| Listing (l : str) (ls : list str).

(** The lines of a guide as they are in the file. *)
Definition eol : str := [10].
Fixpoint prompts (prompt : str) (ls : list str) : list str :=
  match ls with
  | [] => []
  | [l] => [prompt ++ l ++ eol]
  | l :: ls' => (prompt ++ l ++ [92] ++ eol) :: prompts (text "  ...> ") ls'
  end.
Definition command_lines (c : command) : list str := prompts (text "  > ") (pieces c).
Definition item_lines (i : item) : list str :=
  match i with
  | Command c => command_lines c
  | Answer l => [text "  " ++ l ++ eol]
  end.
Definition print_number (n : Z) : str := Messages.print_int n.
Fixpoint separated (sep : str) (ls : list str) : str :=
  match ls with
  | [] => []
  | [l] => l
  | l :: ls' => l ++ sep ++ separated sep ls'
  end.
(** [5.2.1] and [5_2_1] *)
Definition dotted (n : list Z) : str := separated [46] (map print_number n).
Definition name (n : list Z) : str := separated [95] (map print_number n).
Definition block_lines (b : block) : list str :=
  match b with
  | Prose l => [l ++ eol]
  | Heading n title => [text "[section " ++ dotted n ++ text ". " ++ title ++ eol]
  | Session c items => command_lines c ++ concat (map item_lines items)
  | Listing l ls => map (fun l => text "  " ++ l ++ eol) (l :: ls)
  end.
Definition guide_lines (g : list block) : list str := concat (map block_lines g).

(** *** Guides that can be read back *)

Definition one_line (l : str) : bool := forallb (fun c => negb ((c =? 10) || (c =? 13))) l.
Definition ends_with (c : char) (l : str) : bool :=
  match rev l with d :: _ => d =? c | [] => false end.
(** Not the beginning of a numbered section *)
Definition unnumbered (l : str) : bool :=
  negb (begins (text "[section") l
        && match skip_white (skipn 8 l) with
           | c :: _ => ((48 <=? c) && (c <=? 57)) || (c =? 46)
           | [] => false
           end).
Definition no_prompt (l : str) : bool :=
  negb (begins (text "> ") l) && negb (begins (text "...> ") l).
Definition good_command (c : command) : bool :=
  forallb one_line (pieces c)
  && negb (begins (text " ") (fst c))
  && negb (ends_with 92 (last (snd c) (fst c))).
Definition good_item (i : item) : bool :=
  match i with
  | Command c => good_command c
  | Answer l => one_line l && no_prompt l
  end.
Definition good_block (b : block) : bool :=
  match b with
  | Prose l => one_line l && negb (begins (text "  ") l) && unnumbered l
  | Heading n title =>
      forallb (fun k => 0 <=? k) n && match n with [] => false | _ => true end
      && one_line title
  | Session c items => good_command c && forallb good_item items
  | Listing l ls => no_prompt l && forallb one_line (l :: ls)
  end.
(** Not a listing with a line that looks like a command *)
Definition quiet (b : block) : bool :=
  match b with
  | Listing _ ls => forallb no_prompt ls
  | _ => true
  end.
Definition is_listing (b : block) : bool :=
  match b with
  | Session _ _ | Listing _ _ => true
  | _ => false
  end.
(** There is a line of text between two listings. *)
Fixpoint apart (g : list block) : bool :=
  match g with
  | a :: (b :: _) as g' => negb (is_listing a && is_listing b) && apart g'
  | _ => true
  end.
Definition good_guide (g : list block) : Prop :=
  forallb good_block g = true /\ apart g = true.

(** *** What the commands define *)

Definition items_commands (items : list item) : list command :=
  concat (map (fun i => match i with Command c => [c] | Answer _ => [] end) items).
Definition block_commands (b : block) : list command :=
  match b with
  | Session c items => c :: items_commands items
  | _ => []
  end.
Definition commands (g : list block) : list command := concat (map block_commands g).

(** The text of a command on one line *)
Definition one_liner (c : command) : str :=
  separated (text " ") (filter visible (map trim (pieces c))).
(** A command that is not a query *)
Definition defines (c : command) : bool :=
  begins (text "#include ") (one_liner c) || begins (text "using ") (one_liner c)
  || begins (text "struct ") (one_liner c) || begins (text "template ") (one_liner c)
  || ends_with 59 (one_liner c).
Definition of_metashell (c : command) : bool :=
  begins (text "#include <metashell") (one_liner c).

Definition metashell_macro : str := text "__METASHELL".
Definition in_metashell (D : list str) : bool :=
  if in_dec (list_eq_dec Z.eq_dec) metashell_macro D then true else false.

(** The lines a command adds to the source.  The headers of Metashell are for
    Metashell only. *)
Definition command_source (metashell : bool) (c : command) : list str :=
  if defines c && (metashell || negb (of_metashell c))
  then filter significant (map trim (pieces c)) else [].
Definition source_of (metashell : bool) (cs : list command) : list str :=
  concat (map (command_source metashell) cs).

(** Definitions without comments and without directives other than the inclusion of a
    header of a library on one line *)
Definition library_include (c : command) : bool :=
  match snd c with [] => begins (text "#include <") (trim (fst c)) | _ => false end.
Definition plain_definition (c : command) : bool :=
  negb (defines c) || library_include c
  || forallb (fun p => negb (begins (text "#") (trim p)) && negb (begins (text "//") (trim p)))
       (pieces c).

(** *** Numbers of sections *)

Inductive earlier : list Z -> list Z -> Prop :=
| earlier_prefix y b : earlier [] (y :: b)
| earlier_head x y a b : x < y -> earlier (x :: a) (y :: b)
| earlier_tail x a b : earlier a b -> earlier (x :: a) (x :: b).
Definition block_numbers (b : block) : list (list Z) :=
  match b with Heading n _ => [n] | _ => [] end.
Definition numbers (g : list block) : list (list Z) := concat (map block_numbers g).
(** The sections are in the order of their numbers. *)
Inductive in_order : list (list Z) -> Prop :=
| in_order_nil : in_order []
| in_order_cons n ns : Forall (earlier n) ns -> in_order ns -> in_order (n :: ns).

(** The part of a guide that begins with the first numbered section *)
Fixpoint numbered_part (g : list block) : list block :=
  match g with
  | Heading n title :: g' => Heading n title :: g'
  | _ :: g' => numbered_part g'
  | [] => []
  end.

(** The files of a section: the header, the page with what was defined before it *)
Definition header_file (n : list Z) : str := name n ++ text ".hpp".
Definition page_file (n : list Z) : str := text "before_" ++ name n ++ text ".qbk".

(** A page: a link target, a title, a listing *)
Definition is_page (n : list Z) (source : list str) (t : str) : Prop :=
  exists body,
    lines_of t = (text "[#before_" ++ name n ++ text "]")
      :: (text "['Definitions before section " ++ dotted n ++ text ".]") :: body
    /\ Forall (fun l => l = [] \/ begins (text "  ") l = true) body
    /\ filter visible (map trim body) = source.

(** The note in a section that has such a page *)
Definition note_begin : str :=
  text "[note Note that you can find everything that has been included and defined so far [link before_".
Definition note (n : list Z) : str := note_begin ++ name n ++ text " here].]".

(** The heading of the list of the pages *)
Definition contents_heading : str := text "[section Definitions before each section]".
(** A line that is neither a note nor this heading *)
Definition fresh (l : str) : bool :=
  negb (begins note_begin l)
  && if list_eq_dec Z.eq_dec (trim l) contents_heading then false else true.

(** The guide [g] that follows [before], with the notes *)
Fixpoint with_notes (before g : list block) : list block :=
  match g with
  | [] => []
  | b :: g' =>
      b :: match b with
           | Heading n _ =>
               match source_of true (commands (numbered_part before)) with
               | [] => []
               | _ => [Prose (note n)]
               end
           | _ => []
           end
      ++ with_notes (before ++ [b]) g'
  end.

(** The handwritten lines: without the notes and the list of the pages.  [inside]: the
    lines follow the heading of this list. *)
Fixpoint handwritten (inside : bool) (ls : list str) : list str :=
  match ls with
  | [] => []
  | l :: ls' =>
      if inside then
        if list_eq_dec Z.eq_dec (trim l) (text "[endsect]") then l :: handwritten false ls'
        else handwritten true ls'
      else if list_eq_dec Z.eq_dec (trim l) contents_heading then l :: handwritten true ls'
      else if begins note_begin l then handwritten false ls'
      else l :: handwritten false ls'
  end.

(** *** Snippets to be copied *)

Fixpoint within (w s : str) : bool :=
  begins w s || match s with [] => false | _ :: s' => within w s' end.

Definition examples_heading : str := text "[section Copy-paste friendly code examples]".
Definition link_text : str := text "copy-paste friendly version".

(** The handwritten lines that are not empty: without the links to the snippets and the
    list of the snippets *)
Fixpoint authored (inside : bool) (ls : list str) : list str :=
  match ls with
  | [] => []
  | l :: ls' =>
      if inside then
        if within (text "endsect") l then l :: authored false ls' else authored true ls'
      else if negb (visible (trim l)) then authored false ls'
      else if within examples_heading l then l :: authored true ls'
      else if within link_text l then authored false ls'
      else l :: authored false ls'
  end.

(** What there is to paste of a command *)
Definition paste_line (c : command) : str :=
  match snd c with
  | [] => fst c
  | _ => concat (map skip_white (pieces c))
  end ++ eol.
(** The last line of a command that continues is not empty. *)
Definition finished (c : command) : bool :=
  match snd c with
  | [] => true
  | ps => visible (trim (last ps []))
  end.

(** A name that is neither taken for the end of a section nor contains a bracket *)
Definition good_base (base : str) : bool :=
  negb (within (text "[") base) && negb (within (text "endsect") base).

Definition snippet_name (base : str) (i : nat) : str :=
  base ++ text "_" ++ print_number (Z.of_nat i).
Definition snippet_link (base : str) (i : nat) : str :=
  text "[link " ++ snippet_name base i ++ text " copy-paste friendly version]" ++ eol.
Definition snippet (base : str) (i : nat) (cs : list command) : str * str :=
  (snippet_name base i ++ text ".qbk",
   text "[#" ++ snippet_name base i ++ text "]" ++ eol ++ eol
   ++ concat (map (fun c => text "  " ++ paste_line c) cs) ++ eol).

(** The session has more than one line to type in. *)
Definition long_session (b : block) : bool :=
  (1 <? length (concat (map pieces (block_commands b))))%nat.
(** Neither a link nor the heading of the list *)
Definition unlinked (l : str) : bool :=
  negb (within examples_heading l) && negb (within link_text l).

(** The guide with the links: one after the line that follows a long session.
    [pending]: the guide follows a long session. *)
Fixpoint with_links (base : str) (i : nat) (pending : bool) (g : list block) : list str :=
  match g with
  | [] => []
  | b :: g' =>
      block_lines b
      ++ if pending
         then snippet_link base i :: eol :: with_links base (S i) (long_session b) g'
         else with_links base i (long_session b) g'
  end.
(** The commands of the long sessions something follows *)
Fixpoint linked_sessions (g : list block) : list (list command) :=
  match g with
  | b :: (_ :: _) as g' =>
      (if long_session b then [block_commands b] else []) ++ linked_sessions g'
  | _ => []
  end.
Fixpoint snippets (base : str) (i : nat) (css : list (list command)) : list (str * str) :=
  match css with
  | [] => []
  | cs :: css' => snippet base i cs :: snippets base (S i) css'
  end.

(** The characters that are not whitespace *)
Definition dense (s : str) : str := filter (fun c => negb (white c)) s.

(** The include guard of the header of a section *)
Definition guard (n : list Z) : str :=
  text "BOOST_METAPARSE_GETTING_STARTED_" ++ name n ++ text "_HPP".
