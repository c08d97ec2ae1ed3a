(** tools/generate_all.py, the generator of the headers and of parts of the
    documentation of the tutorial.

    Files are named relative to their directory.  A text is a list of lines, each
    with its newline.  [None]: Python raises an exception.  Not modelled: reading,
    deleting and writing files and the command line (generate_all.py:77-80,
    248-294). *)

From Coq Require Import String.
From Coq Require Import ZArith List Bool.
From Verif Require Import Base Messages Benchmark.
Import ListNotations.
Open Scope Z_scope.

(** ** Strings of Python *)

(** [str.isspace] of one character *)
Definition py_space (c : char) : bool := (c =? 32) || ((9 <=? c) && (c <=? 13)).

Fixpoint lstrip (s : str) : str :=
  match s with
  | [] => []
  | c :: s' => if py_space c then lstrip s' else s
  end.
Definition strip (s : str) : str := rev (lstrip (rev (lstrip s))).

(** [a == b] *)
Definition str_eqb (a b : str) : bool := if list_eq_dec Z.eq_dec a b then true else false.

(** [s.endswith(p)] *)
Definition ends (p s : str) : bool := starts (rev p) (rev s).

(** [s[:-1]] *)
Definition drop_last (s : str) : str := removelast s.

(** [p in s] *)
Fixpoint contains (p s : str) : bool :=
  starts p s || match s with [] => false | _ :: s' => contains p s' end.

(** [s.split(c)] *)
Fixpoint split (c : char) (s : str) : list str :=
  match s with
  | [] => [[]]
  | d :: s' =>
      if d =? c then [] :: split c s'
      else match split c s' with
           | w :: ws => (d :: w) :: ws
           | [] => [[d]]
           end
  end.

(** [sep.join(l)] *)
Fixpoint join (sep : str) (l : list str) : str :=
  match l with
  | [] => []
  | [x] => x
  | x :: l' => x ++ sep ++ join sep l'
  end.

(** [s.replace(a, b)] for single characters *)
Definition replace (a b : char) (s : str) : str :=
  map (fun c => if c =? a then b else c) s.

Definition blank (s : str) : bool := match strip s with [] => true | _ => false end.

(** The newline *)
Definition nl : str := [10].

(** ** generate_all.py:13-35 *)

Definition remove_last_dot (s : str) : str :=
  if ends [46] s then drop_last s else s.

Definition remove_newline (s : str) : str :=
  filter (fun c => negb ((c =? 13) || (c =? 10))) s.

Definition is_definition (s : str) : bool :=
  let cmd := strip s in
  existsb (fun p => starts p cmd)
    [literal "#include "; literal "using "; literal "struct "; literal "template "]
  || ends [59] cmd.

Definition prefix_lines (prefix s : str) : str :=
  join nl (map (fun l => prefix ++ l) (split 10 s)).

Definition protect_metashell (s : str) : str :=
  if starts (literal "#include <metashell") s
  then literal "#ifdef __METASHELL" ++ nl ++ s ++ nl ++ literal "#endif"
  else s.

(** ** The regular expressions *)

Fixpoint take_while (f : char -> bool) (s : str) : str :=
  match s with
  | [] => []
  | c :: s' => if f c then c :: take_while f s' else []
  end.
Fixpoint drop_while (f : char -> bool) (s : str) : str :=
  match s with
  | [] => []
  | c :: s' => if f c then drop_while f s' else s
  end.

(** [numbered_section_header.match(l)] and its group 1, generate_all.py:42:
    ["^\[section *([0-9.]+)"] *)
Definition numbered_section (l : str) : option str :=
  if starts (literal "[section") l then
    match take_while (fun c => is_ascii_digit c || (c =? 46))
            (drop_while (Z.eqb 32) (skipn 8 l)) with
    | [] => None
    | n => Some n
    end
  else None.

(** [metashell_command.match(ll)], generate_all.py:43: ["^> [^ ]"] *)
Definition metashell_command (ll : str) : bool :=
  match ll with
  | 62 :: 32 :: c :: _ => negb (c =? 32)
  | _ => false
  end.

(** [metashell_prompt.sub('', s)], generate_all.py:44: ["^(\.\.\.|)>"] *)
Definition remove_prompt (s : str) : str :=
  if starts (literal "...>") s then skipn 4 s
  else if starts (literal ">") s then skipn 1 s
  else s.

(** Group 1 of ["([0-9]\.)+"] at the beginning of [s], the rest of
    [is_section], generate_all.py:145 *)
Fixpoint digit_dots (n : nat) (s : str) : str :=
  match n, s with
  | S n', d :: 46 :: s' => if is_ascii_digit d then d :: 46 :: digit_dots n' s' else []
  | _, _ => []
  end.

(** [is_section.match(l)] and its group 1, generate_all.py:145 *)
Definition is_section (l : str) : option str :=
  if starts (literal "[section ") l then
    match digit_dots (length l) (skipn 9 l) with
    | [] => None
    | n => Some n
    end
  else None.

(** ** parse_md *)

(** The local variables, generate_all.py:38-45.  [in_msh_cpp_snippet] is assigned
    before it is used. *)
Record md : Type := {
  md_sections : list str;
  md_defs : list (str * str);
  md_section : str;
  md_in_cpp : bool;
  md_in_msh : bool;
  md_cmd : str
}.
Definition md_start : md :=
  {| md_sections := []; md_defs := []; md_section := []; md_in_cpp := false;
     md_in_msh := false; md_cmd := [] |}.

(** [msh_cmd] with the line [ll] added, generate_all.py:53-56 *)
Definition add_command (msh_cmd ll : str) : str :=
  match msh_cmd with
  | [] => []
  | _ => msh_cmd ++ nl
  end ++ remove_prompt (remove_newline ll).

(** generate_all.py:60-62 *)
Definition finish_command (msh_cmd : str) : str :=
  protect_metashell (strip
    (if is_definition msh_cmd then msh_cmd
     else literal "// query:" ++ nl ++ prefix_lines (literal "//   ") msh_cmd)).

(** The loop body, generate_all.py:46-72 *)
Definition md_line (m : md) (l : str) : md :=
  if starts (literal "  ") l then
    let ll := skipn 2 l in
    let in_msh := negb (md_in_cpp m) || md_in_msh m in
    if in_msh then
      if metashell_command ll || match md_cmd m with [] => false | _ => true end then
        let msh_cmd := add_command (md_cmd m) ll in
        if ends [92] msh_cmd then
          {| md_sections := md_sections m; md_defs := md_defs m;
             md_section := md_section m; md_in_cpp := true; md_in_msh := in_msh;
             md_cmd := strip (drop_last msh_cmd) ++ [32] |}
        else
          {| md_sections := md_sections m;
             md_defs := md_defs m ++ [(md_section m, finish_command msh_cmd)];
             md_section := md_section m; md_in_cpp := true; md_in_msh := in_msh;
             md_cmd := [] |}
      else
        {| md_sections := md_sections m; md_defs := md_defs m;
           md_section := md_section m; md_in_cpp := true; md_in_msh := md_in_cpp m;
           md_cmd := md_cmd m |}
    else
      {| md_sections := md_sections m; md_defs := md_defs m;
         md_section := md_section m; md_in_cpp := true; md_in_msh := in_msh;
         md_cmd := md_cmd m |}
  else
    match numbered_section l with
    | Some n =>
        let s := replace 46 95 (remove_last_dot n) in
        {| md_sections := md_sections m ++ [s]; md_defs := md_defs m;
           md_section := s; md_in_cpp := false; md_in_msh := md_in_msh m;
           md_cmd := md_cmd m |}
    | None =>
        {| md_sections := md_sections m; md_defs := md_defs m;
           md_section := md_section m; md_in_cpp := false; md_in_msh := md_in_msh m;
           md_cmd := md_cmd m |}
    end.

(** [int(n)] of a string of digits *)
Definition int_of (s : str) : option Z :=
  match s with
  | [] => None
  | _ => Some (fold_left (fun v c => 10 * v + (c - 48)) s 0)
  end.

Fixpoint ints_of (l : list str) : option (list Z) :=
  match l with
  | [] => Some []
  | s :: l' =>
      match int_of s, ints_of l' with
      | Some n, Some ns => Some (n :: ns)
      | _, _ => None
      end
  end.

(** The key of the sort, generate_all.py:74 *)
Definition section_key (s : str) : option (list Z) := ints_of (split 95 s).

(** Comparison of lists *)
Fixpoint list_less (a b : list Z) : bool :=
  match a, b with
  | _, [] => false
  | [], _ :: _ => true
  | x :: a', y :: b' => (x <? y) || ((x =? y) && list_less a' b')
  end.

(** A stable sort: elements with smaller keys first, equal ones in their order *)
Fixpoint insert (k : list Z * str) (l : list (list Z * str)) : list (list Z * str) :=
  match l with
  | [] => [k]
  | x :: l' => if list_less (fst x) (fst k) || negb (list_less (fst k) (fst x))
               then x :: insert k l' else k :: l
  end.
Definition sort (l : list (list Z * str)) : list (list Z * str) :=
  fold_left (fun acc k => insert k acc) l [].

Fixpoint with_keys (l : list str) : option (list (list Z * str)) :=
  match l with
  | [] => Some []
  | s :: l' =>
      match section_key s, with_keys l' with
      | Some k, Some ks => Some ((k, s) :: ks)
      | _, _ => None
      end
  end.

(** [parse_md], generate_all.py:37-75 *)
Definition parse_md (qbk : list str) : option (list str * list (str * str)) :=
  let m := fold_left md_line qbk md_start in
  match with_keys (md_sections m) with
  | Some ks => Some (map snd (sort ks), md_defs m)
  | None => None
  end.

(** ** Files *)

(** A dictionary of files: [files[name] = content] *)
Definition files := list (str * str).
Fixpoint set_file (name content : str) (fs : files) : files :=
  match fs with
  | [] => [(name, content)]
  | (n, c) :: fs' =>
      if str_eqb n name then (n, content) :: fs' else (n, c) :: set_file name content fs'
  end.
Fixpoint get_file (name : str) (fs : files) : option str :=
  match fs with
  | [] => None
  | (n, c) :: fs' => if str_eqb n name then Some c else get_file name fs'
  end.

(** The definitions [d for (sec, d) in defs if sec == s] *)
Definition defs_of (s : str) (defs : list (str * str)) : list str :=
  map snd (filter (fun d => str_eqb (fst d) s) defs).

(** The text of a header, generate_all.py:87-110 *)
Definition header_text (s prev : str) (defs : list (str * str)) : str :=
  let guard := literal "BOOST_METAPARSE_GETTING_STARTED_" ++ s ++ literal "_HPP" in
  let prev_name := replace 95 46 prev in
  literal "#ifndef " ++ guard ++ nl ++
  literal "#define " ++ guard ++ nl ++
  nl ++
  literal "// Automatically generated header file" ++ nl ++
  nl ++
  match prev with
  | [] => []
  | _ =>
      literal "// Definitions before section " ++ prev_name ++ nl ++
      literal "#include """ ++ prev ++ literal ".hpp""" ++ nl ++
      nl
  end ++
  literal "// Definitions of section " ++ prev_name ++ nl ++
  join nl (map (fun d => d ++ nl) (defs_of prev defs)) ++
  nl ++
  literal "#endif" ++ nl ++
  nl.

(** [gen_headers], generate_all.py:82-112 *)
Fixpoint gen_headers_from (prev : str) (sections : list str) (defs : list (str * str))
  (fs : files) : files :=
  match sections with
  | [] => fs
  | s :: sections' =>
      gen_headers_from s sections' defs
        (set_file (s ++ literal ".hpp") (header_text s prev defs) fs)
  end.
Definition gen_headers (sections : list str) (defs : list (str * str)) : files :=
  gen_headers_from [] sections defs [].

(** ** what_we_have_so_far_docs *)

(** [remove_metashell_protection], generate_all.py:114-120 *)
Definition remove_metashell_protection (s : str) : str :=
  let prefix := literal "#ifdef __METASHELL" ++ nl in
  let suffix := literal "#endif" in
  if starts prefix s && ends suffix s
  then skipn (length prefix) (firstn (length s - length suffix) s)
  else s.

(** [make_code_snippet], generate_all.py:122-123 *)
Definition make_code_snippet (s : str) : str := prefix_lines (literal "  ") s.

(** What a section adds to [so_far], generate_all.py:139-143 *)
Definition snippets_of (s : str) (defs : list (str * str)) : str :=
  join nl (map (fun d => make_code_snippet (remove_metashell_protection d) ++ nl)
             (filter (fun d => negb (starts (literal "//") d)) (defs_of s defs))).

(** The file [before_s.qbk], generate_all.py:131-136 *)
Definition before_text (s so_far : str) : str :=
  literal "[#before_" ++ s ++ literal "]" ++ nl ++
  literal "['Definitions before section " ++ replace 95 46 s ++ literal ".]" ++ nl ++ nl ++
  so_far ++ nl.

(** The first loop, generate_all.py:126-143 *)
Fixpoint docs_before (so_far : str) (sections : list str) (defs : list (str * str))
  (fs : files) (with_definition : list str) : files * list str :=
  match sections with
  | [] => (fs, with_definition)
  | s :: sections' =>
      let so_far' := so_far ++ snippets_of s defs in
      match so_far with
      | [] => docs_before so_far' sections' defs fs with_definition
      | _ =>
          docs_before so_far' sections' defs
            (set_file (literal "before_" ++ s ++ literal ".qbk") (before_text s so_far) fs)
            (with_definition ++ [s])
      end
  end.

Definition note_prefix : str :=
  literal "[note Note that you can find everything that has been included and defined so far [link before_".

Definition mem (s : str) (l : list str) : bool := existsb (str_eqb s) l.

(** The loop over the lines, generate_all.py:150-171.  [skipping]:
    [in_definitions_before_each_section] *)
Fixpoint notes (with_definition : list str) (skipping : bool) (qbk : list str) : list str :=
  match qbk with
  | [] => []
  | l :: qbk' =>
      if skipping then
        if str_eqb (strip l) (literal "[endsect]")
        then l :: notes with_definition false qbk'
        else notes with_definition true qbk'
      else if str_eqb (strip l) (literal "[section Definitions before each section]") then
        l :: nl :: map (fun s => literal "[include before_" ++ s ++ literal ".qbk]" ++ nl)
                     with_definition
        ++ nl :: notes with_definition true qbk'
      else if starts note_prefix l then notes with_definition false qbk'
      else
        l :: match is_section l with
             | Some n =>
                 let section_number := drop_last (replace 46 95 n) in
                 if mem section_number with_definition
                 then [note_prefix ++ section_number ++ literal " here].]" ++ nl]
                 else []
             | None => []
             end
        ++ notes with_definition false qbk'
  end.

(** [what_we_have_so_far_docs], generate_all.py:125-173 *)
Definition what_we_have_so_far_docs (qbk : list str) (defs : list (str * str))
  (sections : list str) : files * list str :=
  let (fs, with_definition) := docs_before [] sections defs [] [] in
  (fs, notes with_definition false qbk).

(** ** extract_code_snippets *)

(** [strip_not_finished_line], generate_all.py:175-177 *)
Definition strip_not_finished_line (s : str) : str :=
  let s := strip s in if ends [92] s then drop_last s else s.

(** [make_copy_paste_friendly], generate_all.py:179-186 *)
Fixpoint make_copy_paste_friendly_from (result : list str) (lines : list str)
  : option (list str) :=
  match lines with
  | [] => Some result
  | l :: lines' =>
      if starts (literal "> ") l
      then make_copy_paste_friendly_from (result ++ [skipn 2 l]) lines'
      else if starts (literal "...> ") l then
        match result with
        | [] => None
        | _ => make_copy_paste_friendly_from
                 (removelast result
                  ++ [strip_not_finished_line (last result []) ++ lstrip (skipn 5 l)])
                 lines'
        end
      else make_copy_paste_friendly_from result lines'
  end.
Definition make_copy_paste_friendly (lines : list str) : option (list str) :=
  make_copy_paste_friendly_from [] lines.

(** The local variables, generate_all.py:191-197; [fn_base] without its directory.
    [code] is assigned before it is used. *)
Record ex : Type := {
  ex_files : files;
  ex_result : list str;
  ex_in_cpp : bool;
  ex_code : list str;
  ex_counter : nat;
  ex_in_examples : bool;
  ex_skip : bool
}.
Definition ex_start : ex :=
  {| ex_files := []; ex_result := []; ex_in_cpp := false; ex_code := [];
     ex_counter := 0; ex_in_examples := false; ex_skip := false |}.

Definition numbered (fn_base : str) (i : nat) : str :=
  fn_base ++ [95] ++ print_int (Z.of_nat i).

(** The line with the link, generate_all.py:233-235 *)
Definition link_line (fn_base : str) (i : nat) : str :=
  literal "[link " ++ numbered fn_base i ++ literal " copy-paste friendly version]" ++ nl.
(** generate_all.py:206 *)
Definition include_line (fn_base : str) (i : nat) : str :=
  literal "[include " ++ numbered fn_base i ++ literal ".qbk]" ++ nl.
(** The file of a snippet, generate_all.py:226-232 *)
Definition snippet_text (fn_base : str) (i : nat) (lines : list str) : str :=
  literal "[#" ++ numbered fn_base i ++ literal "]" ++ nl ++ nl
  ++ concat (map (fun s => literal "  " ++ s) lines) ++ nl.

Definition ex_set (e : ex) (result : list str) (in_cpp : bool) (code : list str)
  (in_examples skip : bool) : ex :=
  {| ex_files := ex_files e; ex_result := ex_result e ++ result; ex_in_cpp := in_cpp;
     ex_code := code; ex_counter := ex_counter e; ex_in_examples := in_examples;
     ex_skip := skip |}.

(** The loop body, generate_all.py:198-244 *)
Definition ex_line (fn_base : str) (e : ex) (l : str) : option ex :=
  if blank l && ex_skip e then Some e
  else if ex_in_examples e then
    if contains (literal "endsect") l
    then Some (ex_set e (nl :: map (include_line fn_base) (seq 0 (ex_counter e)) ++ [nl; l])
                 (ex_in_cpp e) (ex_code e) false false)
    else Some (ex_set e [] (ex_in_cpp e) (ex_code e) true false)
  else if contains (literal "[section Copy-paste friendly code examples]") l
  then Some (ex_set e [l] (ex_in_cpp e) (ex_code e) true false)
  else if contains (literal "copy-paste friendly version") l
  then Some (ex_set e [] (ex_in_cpp e) (ex_code e) false true)
  else if ex_in_cpp e then
    if starts (literal "  ") l then
      Some (ex_set e [l] true
              (if starts (literal "  > ") l || starts (literal "  ...> ") l
               then ex_code e ++ [skipn 2 l] else ex_code e) false false)
    else if (1 <? length (ex_code e))%nat then
      match make_copy_paste_friendly (ex_code e) with
      | Some lines =>
          Some {| ex_files := set_file (numbered fn_base (ex_counter e) ++ literal ".qbk")
                                (snippet_text fn_base (ex_counter e) lines) (ex_files e);
                  ex_result := ex_result e ++ [l; link_line fn_base (ex_counter e); nl];
                  ex_in_cpp := false; ex_code := ex_code e;
                  ex_counter := S (ex_counter e); ex_in_examples := false;
                  ex_skip := false |}
      | None => None
      end
    else Some (ex_set e [l] false (ex_code e) false false)
  else if starts (literal "  ") l
  then Some (ex_set e [l] true [skipn 2 l] false false)
  else Some (ex_set e [l] false (ex_code e) false false).

Fixpoint ex_lines (fn_base : str) (e : ex) (qbk : list str) : option ex :=
  match qbk with
  | [] => Some e
  | l :: qbk' =>
      match ex_line fn_base e l with
      | Some e' => ex_lines fn_base e' qbk'
      | None => None
      end
  end.

(** [extract_code_snippets], generate_all.py:188-246 *)
Definition extract_code_snippets (qbk : list str) (fn_base : str)
  : option (files * list str) :=
  match ex_lines fn_base ex_start qbk with
  | Some e => Some (ex_files e, ex_result e)
  | None => None
  end.

(** ** main *)

(** The three sets of files and the new text of the guide, generate_all.py:279-291 *)
Definition generate_all (qbk : list str) (fn_base : str)
  : option (files * files * files * list str) :=
  match parse_md qbk with
  | None => None
  | Some (sections, defs) =>
      let files1 := gen_headers sections defs in
      let (files2, qbk1) := what_we_have_so_far_docs qbk defs sections in
      match extract_code_snippets qbk1 fn_base with
      | None => None
      | Some (files3, qbk2) => Some (files1, files2, files3, qbk2)
      end
  end.
