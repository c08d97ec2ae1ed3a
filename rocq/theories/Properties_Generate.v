(** Properties proved about the generator of the tutorial's headers. *)

From Coq Require Import ZArith List Bool Lia Permutation Sorted.
From Verif Require Import Base Messages Spec Generate SpecGenerate Proofs_Snippets
  Proofs_Generate Proofs_Pages Proofs_Links.
Import ListNotations.
Open Scope Z_scope.

(** ** C71: the headers *)

(** From a guide whose sections are in the order of their numbers one header is
    generated for each of them.  Including it gives the compiler the definitions of
    everything before the section, in their order, and once. *)
Theorem C71_headers : forall g, good_guide g -> in_order (numbers g) ->
  forallb plain_definition (commands g) = true ->
  exists sections defs,
    parse_md (guide_lines g) = Some (sections, defs)
    /\ map fst (gen_headers sections defs) = map header_file (numbers g)
    /\ NoDup (map fst (gen_headers sections defs))
    /\ forall before n title after D, g = before ++ Heading n title :: after ->
       (forall k, In k (numbers g) -> ~ In (guard k) D) ->
       exists t D', In (header_file n, t) (gen_headers sections defs)
         /\ preprocess (gen_headers sections defs) D (source_lines t) D'
              (source_of (in_metashell D) (commands before))
         /\ preprocess (gen_headers sections defs) D' (source_lines t) D' [].
Proof.
  intros g G O P. exists (all_names g), (tagged [] g).
  split; [apply parse_guide; auto|].
  destruct (headers_distinct g G O) as (N & M). split; [exact N|]. split; [exact M|].
  intros before n title after D E GD. exact (headers_of_guide g G O P before n title after D E GD).
Qed.
Print Assumptions C71_headers.

(** What the preprocessor gives is determined. *)
Theorem C71_preprocessor : forall fs D ls D1 out1 D2 out2, NoDup (map fst fs) ->
  preprocess fs D ls D1 out1 -> preprocess fs D ls D2 out2 -> D1 = D2 /\ out1 = out2.
Proof.
  intros fs D ls D1 out1 D2 out2 N A B. exact (preprocess_unique fs N D ls D1 out1 A D2 out2 B).
Qed.
Print Assumptions C71_preprocessor.

(** The sections are put in order, whatever their order in the guide. *)
Theorem C71_sections_sorted : forall g, good_guide g -> exists ns defs,
  parse_md (guide_lines g) = Some (map name ns, defs)
  /\ Permutation ns (numbers g) /\ StronglySorted (fun a b => ~ earlier b a) ns.
Proof. exact sections_sorted. Qed.
Print Assumptions C71_sections_sorted.

Example C71_sorted_case :
  let g := [Heading [10] (text "c]"); Heading [2; 1] (text "b]"); Heading [2] (text "a]")] in
  good_guide g /\ exists defs, parse_md (guide_lines g) = Some (map name [[2]; [2; 1]; [10]], defs).
Proof. split; [split; reflexivity|]. exists []. vm_compute. reflexivity. Qed.

(** The names of different sections differ. *)
Theorem C71_names : forall n m, Forall (fun k => 0 <= k) n -> Forall (fun k => 0 <= k) m ->
  n <> [] -> m <> [] -> header_file n = header_file m -> n = m.
Proof.
  intros n m N M NE ME H. apply header_name_inj in H. apply name_inj; [split|split|]; assumption.
Qed.
Print Assumptions C71_names.

Definition demo : list block :=
  [ Prose (text "A guide");
    Heading [1] (text "The first section]");
    Prose [];
    Session (text "#include <metashell/instantiate.hpp>", [])
      [ Command (text "using a = ", [text "  int;"]); Answer (text "void");
        Command (text "a", []) ];
    Prose [];
    Heading [1; 2] (text "Inside]");
    Listing (text "struct shown;") [];
    Prose (text "Enter the following:");
    Session (text "template <class T> struct b {};", []) [];
    Prose [];
    Heading [2] (text "The second section]");
    Prose (text "The end") ].

Lemma demo_good : good_guide demo /\ in_order (numbers demo)
  /\ forallb plain_definition (commands demo) = true.
Proof.
  split; [split; reflexivity|]. split; [|reflexivity].
  change (numbers demo) with [[1]; [1; 2]; [2]].
  apply in_order_cons.
  - constructor; [apply earlier_tail; constructor|].
    constructor; [apply earlier_head; lia|constructor].
  - apply in_order_cons.
    + constructor; [apply earlier_head; lia|constructor].
    + apply in_order_cons; constructor.
Qed.

Example C71_headers_case :
  exists sections defs,
    parse_md (guide_lines demo) = Some (sections, defs)
    /\ exists t D', In (text "2.hpp", t) (gen_headers sections defs)
       /\ preprocess (gen_headers sections defs) [text "NDEBUG"] (source_lines t) D'
            [text "using a ="; text "int;"; text "template <class T> struct b {};"].
Proof.
  destruct demo_good as (G & O & P).
  destruct (C71_headers demo G O P) as (ss & ds & E & _ & _ & H). exists ss, ds.
  split; [exact E|].
  destruct (H (firstn 10 demo) [2] (text "The second section]") [Prose (text "The end")]
              [text "NDEBUG"] eq_refl) as (t & D' & I & X & _).
  { intros k K [I|[]]. discriminate I. }
  exists t, D'. split; [exact I|]. exact X.
Qed.

(** The same in Metashell, where there are headers for Metashell *)
Example C71_headers_metashell :
  exists sections defs,
    parse_md (guide_lines demo) = Some (sections, defs)
    /\ exists t D', In (text "1_2.hpp", t) (gen_headers sections defs)
       /\ preprocess (gen_headers sections defs) [text "__METASHELL"] (source_lines t) D'
            [text "#include <metashell/instantiate.hpp>"; text "using a ="; text "int;"].
Proof.
  destruct demo_good as (G & O & P).
  destruct (C71_headers demo G O P) as (ss & ds & E & _ & _ & H). exists ss, ds.
  split; [exact E|].
  destruct (H (firstn 5 demo) [1; 2] (text "Inside]") (skipn 6 demo)
              [text "__METASHELL"] eq_refl) as (t & D' & I & X & _).
  { intros k K [I|[]]. discriminate I. }
  exists t, D'. split; [exact I|]. exact X.
Qed.

(** Where the sections are not in the order of their numbers the headers do not have what
    is before them in the guide. *)
Theorem C71_order_refuted : exists g before n title after sections defs t D' out,
  good_guide g /\ NoDup (numbers g) /\ forallb plain_definition (commands g) = true
  /\ g = before ++ Heading n title :: after
  /\ parse_md (guide_lines g) = Some (sections, defs)
  /\ In (header_file n, t) (gen_headers sections defs)
  /\ preprocess (gen_headers sections defs) [] (source_lines t) D' out
  /\ out <> source_of false (commands before).
Proof.
  set (before := [Heading [2] (text "b]"); Session (text "using a = b;", []) []; Prose []]).
  exists (before ++ [Heading [1] (text "a]")]), before, [1], (text "a]"), [].
  eexists. eexists. eexists. exists [guard [1]], [].
  split; [split; reflexivity|]. split.
  { repeat constructor; cbn; intuition discriminate. }
  split; [reflexivity|]. split; [reflexivity|]. split; [reflexivity|].
  split; [left; reflexivity|]. split; [|discriminate].
  match goal with |- preprocess ?fs ?D _ ?D' _ =>
    change (preprocess fs D
              ((text "#ifndef " ++ guard [1]) :: [text "#define " ++ guard [1]]
               ++ text "#endif" :: []) D' ([] ++ [])) end.
  eapply pp_taken.
  - right. exists (guard [1]). split; [reflexivity|]. intros [].
  - apply bal_line; [reflexivity|constructor].
  - apply pp_define. constructor.
  - constructor.
Qed.
Print Assumptions C71_order_refuted.

(** ** C72: the pages with the definitions before each section *)

(** There is a page for exactly the sections that have definitions in the numbered sections
    before them, and it has these definitions, in their order, in a listing. *)
Theorem C72_pages : forall g, good_guide g -> in_order (numbers g) ->
  forallb plain_definition (commands g) = true ->
  exists sections defs pages guide',
    parse_md (guide_lines g) = Some (sections, defs)
    /\ what_we_have_so_far_docs (guide_lines g) defs sections = (pages, guide')
    /\ NoDup (map fst pages)
    /\ (forall f, In f (map fst pages) -> exists n, In n (numbers g) /\ f = page_file n)
    /\ forall before n title after, g = before ++ Heading n title :: after ->
       let source := source_of true (commands (numbered_part before)) in
       (source = [] -> ~ In (page_file n) (map fst pages))
       /\ (source <> [] -> exists t, In (page_file n, t) pages /\ is_page n source t).
Proof.
  intros g G O P. exists (all_names g), (tagged [] g).
  exists (pages [] (all_names g) (tagged [] g)). eexists.
  split; [apply parse_guide; auto|]. split; [apply docs_of_guide; auto|].
  split; [apply pages_distinct; auto|]. split.
  - intros f F. rewrite pages_names in F. apply in_map_iff in F as (s & <- & S).
    apply paged_in in S. apply in_map_iff in S as (n & <- & N). exists n. auto.
  - intros before n title after E source.
    destruct (pages_of_guide g G O P before n title after E) as (A & B). split.
    + intro Z. apply A. exact Z.
    + intro Z. apply B. exact Z.
Qed.
Print Assumptions C72_pages.

Example C72_pages_case :
  exists sections defs pages guide' t,
    parse_md (guide_lines demo) = Some (sections, defs)
    /\ what_we_have_so_far_docs (guide_lines demo) defs sections = (pages, guide')
    /\ In (text "before_2.qbk", t) pages
    /\ is_page [2] [text "#include <metashell/instantiate.hpp>"; text "using a ="; text "int;";
                    text "template <class T> struct b {};"] t
    /\ ~ In (text "before_1.qbk") (map fst pages).
Proof.
  destruct demo_good as (G & O & P).
  destruct (C72_pages demo G O P) as (ss & ds & ps & g' & E & W & _ & _ & H).
  destruct (H (firstn 10 demo) [2] (text "The second section]") [Prose (text "The end")] eq_refl)
    as (_ & B).
  destruct B as (t & I & Q); [discriminate|].
  destruct (H (firstn 1 demo) [1] (text "The first section]") (skipn 2 demo) eq_refl) as (A & _).
  exists ss, ds, ps, g', t. split; [exact E|]. split; [exact W|]. split; [exact I|].
  split; [exact Q|]. apply A. reflexivity.
Qed.

(** A section whose number has digits only, each below ten, has a note that links to its
    page, if it has one. *)
Theorem C72_notes : forall g, good_guide g -> in_order (numbers g) ->
  forallb plain_definition (commands g) = true ->
  Forall (Forall (fun k => k <= 9)) (numbers g) ->
  forallb fresh (guide_lines g) = true ->
  exists sections defs pages,
    parse_md (guide_lines g) = Some (sections, defs)
    /\ what_we_have_so_far_docs (guide_lines g) defs sections
       = (pages, guide_lines (with_notes [] g)).
Proof.
  intros g G O P S F. exists (all_names g), (tagged [] g).
  exists (pages [] (all_names g) (tagged [] g)).
  split; [apply parse_guide; auto|]. rewrite docs_of_guide by auto.
  rewrite notes_of_guide by auto. reflexivity.
Qed.
Print Assumptions C72_notes.

Example C72_notes_case :
  forallb fresh (guide_lines demo) = true
  /\ Forall (Forall (fun k => k <= 9)) (numbers demo)
  /\ with_notes [] demo
     = firstn 6 demo ++ [Prose (note [1; 2])] ++ firstn 5 (skipn 6 demo) ++ [Prose (note [2])]
       ++ skipn 11 demo.
Proof.
  split; [reflexivity|]. split; [|reflexivity].
  change (numbers demo) with [[1]; [1; 2]; [2]]. repeat constructor; lia.
Qed.

(** The sections from 10 on have pages but no notes that link to them; this is so in the
    guide of this commit. *)
Theorem C72_two_digits_refuted : exists g before n title after sections defs pages guide',
  good_guide g /\ in_order (numbers g) /\ forallb plain_definition (commands g) = true
  /\ forallb fresh (guide_lines g) = true
  /\ g = before ++ Heading n title :: after
  /\ parse_md (guide_lines g) = Some (sections, defs)
  /\ what_we_have_so_far_docs (guide_lines g) defs sections = (pages, guide')
  /\ In (page_file n) (map fst pages)
  /\ ~ In (note n ++ eol) guide' /\ guide' = guide_lines g.
Proof.
  set (before := [Heading [9] (text "a]"); Session (text "using a = b;", []) []; Prose []]).
  exists (before ++ [Heading [10] (text "b]")]), before, [10], (text "b]"), [].
  eexists. eexists. eexists. eexists.
  split; [split; reflexivity|]. split.
  { change (in_order [[9]; [10]]). apply in_order_cons.
    - constructor; [apply earlier_head; lia|constructor].
    - apply in_order_cons; constructor. }
  split; [reflexivity|]. split; [reflexivity|]. split; [reflexivity|]. split; [reflexivity|].
  split; [reflexivity|]. split; [left; reflexivity|]. split; [|reflexivity].
  vm_compute. intros H. repeat (destruct H as [H|H]; [discriminate H|]). exact H.
Qed.
Print Assumptions C72_two_digits_refuted.

(** Inside a section with a page, a section with a number like 5.10 has the note of the
    outer section. *)
Theorem C72_wrong_note_refuted : exists g before n title after sections defs pages guide' u v m,
  good_guide g /\ in_order (numbers g) /\ forallb plain_definition (commands g) = true
  /\ forallb fresh (guide_lines g) = true
  /\ g = before ++ Heading n title :: after
  /\ parse_md (guide_lines g) = Some (sections, defs)
  /\ what_we_have_so_far_docs (guide_lines g) defs sections = (pages, guide')
  /\ guide' = u ++ SpecGenerate.block_lines (Heading n title) ++ [note m ++ eol] ++ v /\ m <> n.
Proof.
  set (before := [Heading [1] (text "a]"); Session (text "using a = b;", []) []; Prose [];
                  Heading [5] (text "b]"); Session (text "using c = d;", []) []; Prose []]).
  exists (before ++ [Heading [5; 10] (text "c]")]), before, [5; 10], (text "c]"), [].
  eexists. eexists. eexists. eexists.
  exists (firstn 7 (guide_lines (with_notes [] before))), [], [5].
  split; [split; reflexivity|]. split.
  { change (in_order [[1]; [5]; [5; 10]]). apply in_order_cons.
    - constructor; [apply earlier_head; lia|]. constructor; [apply earlier_head; lia|constructor].
    - apply in_order_cons.
      + constructor; [apply earlier_tail; constructor|constructor].
      + apply in_order_cons; constructor. }
  split; [reflexivity|]. split; [reflexivity|]. split; [reflexivity|]. split; [reflexivity|].
  split; [reflexivity|]. split; [reflexivity|]. discriminate.
Qed.
Print Assumptions C72_wrong_note_refuted.

(** The definitions before the first numbered section are in the headers but on no page. *)
Theorem C72_early_refuted : exists g before n title after sections defs pages guide',
  good_guide g /\ in_order (numbers g) /\ forallb plain_definition (commands g) = true
  /\ g = before ++ Heading n title :: after
  /\ source_of true (commands before) <> []
  /\ parse_md (guide_lines g) = Some (sections, defs)
  /\ what_we_have_so_far_docs (guide_lines g) defs sections = (pages, guide')
  /\ ~ In (page_file n) (map fst pages).
Proof.
  set (before := [Session (text "using a = b;", []) []; Prose []]).
  exists (before ++ [Heading [1] (text "b]")]), before, [1], (text "b]"), [].
  eexists. eexists. eexists. eexists.
  split; [split; reflexivity|]. split.
  { change (in_order [[1]]). apply in_order_cons; constructor. }
  split; [reflexivity|]. split; [reflexivity|]. split; [discriminate|]. split; [reflexivity|].
  split; [reflexivity|]. intros [].
Qed.
Print Assumptions C72_early_refuted.

(** ** C73: generating again *)

(** The notes and the list of the pages are what they are however often they are
    generated, and nothing else of the text is touched. *)
Theorem C73_notes_again : forall with_definition x,
  notes with_definition false (notes with_definition false x) = notes with_definition false x.
Proof. intros S x. apply notes_idempotent. Qed.
Print Assumptions C73_notes_again.

Theorem C73_notes_keep : forall with_definition x,
  handwritten false (notes with_definition false x) = handwritten false x.
Proof. intros S x. apply handwritten_kept. Qed.
Print Assumptions C73_notes_keep.

Example C73_notes_case :
  let x := map (fun l => l ++ eol)
    [text "[section 2. Two]"; note [9]; text "text";
     text "[section Definitions before each section]"; text "[include before_7.qbk]";
     text "[endsect]"; text "end"] in
  notes [text "2"] false x
  = map (fun l => l ++ eol)
    [text "[section 2. Two]"; note [2]; text "text";
     text "[section Definitions before each section]"; []; text "[include before_2.qbk]"; [];
     text "[endsect]"; text "end"]
  /\ handwritten false x
     = map (fun l => l ++ eol)
       [text "[section 2. Two]"; text "text"; text "[section Definitions before each section]";
        text "[endsect]"; text "end"].
Proof. split; reflexivity. Qed.

(** From the second time on, the links to the snippets, the list of the snippets and the
    snippets are what they are, and nothing but them and empty lines is touched. *)
Theorem C73_links_again : forall base x fs y, good_base base = true ->
  extract_code_snippets x base = Some (fs, y) ->
  exists fs' z, extract_code_snippets y base = Some (fs', z)
    /\ extract_code_snippets z base = Some (fs', z).
Proof. intros base x fs y B H. exact (stable base x fs y (good_base_ok base B) H). Qed.
Print Assumptions C73_links_again.

Theorem C73_links_keep : forall base x fs y, good_base base = true ->
  extract_code_snippets x base = Some (fs, y) -> authored false y = authored false x.
Proof. intros base x fs y B H. exact (authored_kept base x fs y (good_base_ok base B) H). Qed.
Print Assumptions C73_links_keep.

Definition linked_demo : list str :=
  map (fun l => l ++ eol)
    [text "  > a;"; text "  > b;"; []; text "[link guide_7 copy-paste friendly version]"; [];
     text "text"; text "[section Copy-paste friendly code examples]";
     text "[include guide_7.qbk]"; text "[endsect]"].

Example C73_links_case :
  good_base (text "guide") = true
  /\ extract_code_snippets linked_demo (text "guide")
     = Some ([snippet (text "guide") 0 [(text "a;", []); (text "b;", [])]],
             map (fun l => l ++ eol)
               [text "  > a;"; text "  > b;"; [];
                text "[link guide_0 copy-paste friendly version]"; []; text "text";
                text "[section Copy-paste friendly code examples]"; [];
                text "[include guide_0.qbk]"; []; text "[endsect]"])
  /\ authored false linked_demo
     = map (fun l => l ++ eol)
         [text "  > a;"; text "  > b;"; text "text";
          text "[section Copy-paste friendly code examples]"; text "[endsect]"].
Proof. split; [reflexivity|]. split; reflexivity. Qed.

(** The second time can differ from the first time. *)
Theorem C73_once_refuted : exists base x fs y fs' z,
  good_base base = true /\ extract_code_snippets x base = Some (fs, y)
  /\ extract_code_snippets y base = Some (fs', z) /\ z <> y.
Proof.
  exists (text "guide"),
    (map (fun l => l ++ eol) [text "  > a;"; text "  > b;"; []; []; text "text"]).
  do 4 eexists. split; [reflexivity|]. split; [reflexivity|]. split; [reflexivity|]. discriminate.
Qed.
Print Assumptions C73_once_refuted.

(** ** C74: the snippets *)

(** After the line that follows a session with more than one line there is a link to a
    file with the commands of the session, one on each line. *)
Theorem C74_links : forall base g, good_guide g -> forallb quiet g = true ->
  forallb unlinked (guide_lines g) = true -> forallb finished (commands g) = true ->
  extract_code_snippets (guide_lines g) base
  = Some (snippets base 0 (linked_sessions g), with_links base 0 false g).
Proof. exact links_of_guide. Qed.
Print Assumptions C74_links.

Theorem C74_files : forall base css, NoDup (map fst (snippets base 0 css)).
Proof. intros. apply snippets_distinct. Qed.
Print Assumptions C74_files.

(** But for whitespace this is what is typed in. *)
Theorem C74_text : forall c, dense (paste_line c) = dense (concat (pieces c)).
Proof. exact paste_dense. Qed.
Print Assumptions C74_text.

Example C74_links_case :
  forallb quiet demo = true /\ forallb unlinked (guide_lines demo) = true /\ forallb finished (commands demo) = true
  /\ linked_sessions demo
     = [[(text "#include <metashell/instantiate.hpp>", []); (text "using a = ", [text "  int;"]);
         (text "a", [])]]
  /\ map paste_line (nth 0 (linked_sessions demo) [])
     = map (fun l => l ++ eol)
         [text "#include <metashell/instantiate.hpp>"; text "using a = int;"; text "a"]
  /\ with_links (text "guide") 0 false demo
     = guide_lines (firstn 5 demo)
       ++ [snippet_link (text "guide") 0; eol] ++ guide_lines (skipn 5 demo).
Proof. repeat (split; [reflexivity|]). reflexivity. Qed.

(** A session at the end of the guide has no snippet. *)
Theorem C74_last_refuted : exists base g fs y,
  good_guide g /\ forallb quiet g = true /\ forallb unlinked (guide_lines g) = true
  /\ forallb finished (commands g) = true /\ existsb long_session g = true
  /\ extract_code_snippets (guide_lines g) base = Some (fs, y) /\ fs = [].
Proof.
  exists (text "guide"), [Session (text "a;", []) [Command (text "b;", [])]]. do 2 eexists.
  split; [split; reflexivity|]. repeat (split; [reflexivity|]). reflexivity.
Qed.
Print Assumptions C74_last_refuted.

(** Commands are run together when the last line of one of them is empty. *)
Theorem C74_unfinished_refuted : exists base g fs y,
  good_guide g /\ forallb quiet g = true /\ forallb unlinked (guide_lines g) = true
  /\ extract_code_snippets (guide_lines g) base = Some (fs, y)
  /\ exists f t, In (f, t) fs /\ within (text "using a = b;  using c = d;") t = true
  /\ within (text "using a = b;  using c = d;") (concat (guide_lines g)) = false.
Proof.
  exists (text "guide"),
    [Session (text "using a = b;", [[]]) [Command (text "using c = d;", [])]; Prose []].
  do 2 eexists. split; [split; reflexivity|]. repeat (split; [reflexivity|]).
  do 2 eexists. split; [left; reflexivity|]. split; reflexivity.
Qed.
Print Assumptions C74_unfinished_refuted.

(** A listing that is not a session has a snippet if one of its lines looks like a command;
    there are just these lines in it.  In the guide of this commit this is so for the
    comparison of exp_parser9 and exp_parser10: getting_started_14.qbk. *)
Theorem C74_listing_refuted : exists base g l ls fs y f t,
  good_guide g /\ commands g = [] /\ In (Listing l ls) g
  /\ forallb unlinked (guide_lines g) = true
  /\ extract_code_snippets (guide_lines g) base = Some (fs, y)
  /\ In (f, t) fs /\ filter visible (map trim (lines_of t)) = [text "[#guide_0]"; text ">"]
  /\ In (snippet_link base 0) y.
Proof.
  exists (text "guide"),
    [Listing (text "build_parser<        build_parser<")
       [text "  int_token            entire_input<int_token>"; text ">                    >"];
     Prose []].
  do 6 eexists. split; [split; reflexivity|]. split; [reflexivity|]. split; [left; reflexivity|].
  split; [reflexivity|]. split; [reflexivity|]. split; [left; reflexivity|].
  split; [reflexivity|]. right. right. right. right. left. reflexivity.
Qed.
Print Assumptions C74_listing_refuted.

(** In a snippet two words can be one that are two in the header. *)
Theorem C74_words_refuted : exists c,
  good_command c = true /\ finished c = true /\ plain_definition c = true
  /\ begins (text "using a") (one_liner c) = true
  /\ begins (text "usinga") (paste_line c) = true.
Proof. exists (text "using", [text "a = b;"]). repeat (split; [reflexivity|]). reflexivity. Qed.
Print Assumptions C74_words_refuted.

(** ** C75: everything that is generated from a guide *)

Theorem C75_everything : forall base g, good_guide g -> in_order (numbers g) ->
  forallb plain_definition (commands g) = true ->
  Forall (Forall (fun k => k <= 9)) (numbers g) ->
  forallb fresh (guide_lines g) = true ->
  forallb quiet g = true ->
  forallb unlinked (guide_lines g) = true -> forallb finished (commands g) = true ->
  exists headers pages,
    generate_all (guide_lines g) base
    = Some (headers, pages, snippets base 0 (linked_sessions g),
            with_links base 0 false (with_notes [] g))
    /\ map fst headers = map header_file (numbers g)
    /\ NoDup (map fst headers) /\ NoDup (map fst pages)
    /\ forall before n title after, g = before ++ Heading n title :: after ->
       (forall D, (forall k, In k (numbers g) -> ~ In (guard k) D) ->
          exists t D', In (header_file n, t) headers
            /\ preprocess headers D (source_lines t) D'
                 (source_of (in_metashell D) (commands before)))
       /\ let source := source_of true (commands (numbered_part before)) in
          (source = [] -> ~ In (page_file n) (map fst pages))
          /\ (source <> [] -> exists t, In (page_file n, t) pages /\ is_page n source t).
Proof.
  intros base g G O P S F Q U D.
  exists (gen_headers (all_names g) (tagged [] g)), (pages [] (all_names g) (tagged [] g)).
  split; [apply everything; auto|].
  destruct (headers_distinct g G O) as (N & M). split; [exact N|]. split; [exact M|].
  split; [apply pages_distinct; auto|]. intros before n title after E. split.
  - intros D' GD.
    destruct (headers_of_guide g G O P before n title after D' E GD) as (t & D2 & I & X & _).
    exists t, D2. auto.
  - destruct (pages_of_guide g G O P before n title after E) as (A & B). split.
    + intro Z. apply A. exact Z.
    + intro Z. apply B. exact Z.
Qed.
Print Assumptions C75_everything.

Example C75_everything_case :
  exists headers pages,
    generate_all (guide_lines demo) (text "guide")
    = Some (headers, pages, snippets (text "guide") 0 (linked_sessions demo),
            with_links (text "guide") 0 false (with_notes [] demo))
    /\ map fst headers = [text "1.hpp"; text "1_2.hpp"; text "2.hpp"]
    /\ map fst pages = [text "before_1_2.qbk"; text "before_2.qbk"].
Proof.
  exists (match generate_all (guide_lines demo) (text "guide") with
          | Some (headers, _, _, _) => headers
          | None => []
          end),
         (match generate_all (guide_lines demo) (text "guide") with
          | Some (_, pages, _, _) => pages
          | None => []
          end).
  split; [vm_compute; reflexivity|]. split; vm_compute; reflexivity.
Qed.
