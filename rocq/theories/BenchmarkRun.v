(** Generating the benchmarks and plotting their measurements:
    tools/benchmark/generate.py (the templates and the main function) and
    tools/benchmark/benchmark.py.

    [None]: Python raises an exception.  Not modelled: the templating engine
    (Cheetah; the text it makes from a template is an argument), running the
    compiler (what it takes is an argument), json (a configuration is a value; its
    numbers are strings as json makes them), drawing the diagrams, directories
    (files are named relative to them), the command line. *)

From Coq Require Import String.
From Coq Require Import ZArith List Bool.
From Verif Require Import Base Messages Benchmark Generate.
Import ListNotations.
Open Scope Z_scope.

(** ** Dictionaries and strings of Python *)

Section Dict.
Variable V : Type.
Definition dict : Type := list (str * V).
(** [d[k] = v] *)
Fixpoint dict_set (k : str) (v : V) (d : dict) : dict :=
  match d with
  | [] => [(k, v)]
  | (n, x) :: d' => if str_eqb n k then (n, v) :: d' else (n, x) :: dict_set k v d'
  end.
(** [d[k]] *)
Fixpoint dict_get (k : str) (d : dict) : option V :=
  match d with
  | [] => None
  | (n, x) :: d' => if str_eqb n k then Some x else dict_get k d'
  end.
End Dict.
Arguments dict_set {V}.
Arguments dict_get {V}.

(** [[f(x) for x in l]], where [f] may raise an exception *)
Fixpoint try_map {A B : Type} (f : A -> option B) (l : list A) : option (list B) :=
  match l with
  | [] => Some []
  | x :: l' =>
      match f x, try_map f l' with
      | Some y, Some r => Some (y :: r)
      | _, _ => None
      end
  end.

(** [s.splitlines()] of a byte string *)
Fixpoint splitlines_from (cur s : str) : list str :=
  match s with
  | [] => match cur with [] => [] | _ => [cur] end
  | c :: s' =>
      if c =? 10 then cur :: splitlines_from [] s'
      else if c =? 13 then
        cur :: match s' with
               | d :: s'' => if d =? 10 then splitlines_from [] s'' else splitlines_from [] s'
               | [] => []
               end
      else splitlines_from (cur ++ [c]) s'
  end.
Definition splitlines (s : str) : list str := splitlines_from [] s.

(** [s.replace(old, new)], [old] not empty; [skip] characters belong to the
    occurrence found last. *)
Fixpoint replace_from (old new : str) (skip : nat) (s : str) : str :=
  match s with
  | [] => []
  | c :: s' =>
      match skip with
      | S k => replace_from old new k s'
      | O => if starts old s then new ++ replace_from old new (pred (length old)) s'
             else c :: replace_from old new O s'
      end
  end.
Definition replace_all (old new s : str) : str := replace_from old new O s.

(** [range(a, b, s)] for numbers that are not negative *)
Definition py_range (a b s : Z) : option (list Z) :=
  if s =? 0 then None
  else Some (map (fun i => a + s * Z.of_nat i) (seq 0 (Z.to_nat ((b - a + s - 1) / s)))).

(** [sorted(l)] *)
Fixpoint insert_int (x : Z) (l : list Z) : list Z :=
  match l with
  | [] => [x]
  | y :: l' => if x <? y then x :: l else y :: insert_int x l'
  end.
Definition sorted (l : list Z) : list Z := fold_left (fun acc x => insert_int x acc) l [].

(** ** tools/benchmark/generate.py *)

(** [[ \t]] *)
Definition tab_or_space (c : char) : bool := (c =? 32) || (c =? 9).

(** The literal characters [p] at the beginning of [s] *)
Definition expect (p s : str) : option str :=
  if starts p s then Some (skipn (length p) s) else None.
(** [[ \t]*] *)
Definition spaces0 (s : str) : str := drop_while tab_or_space s.
(** [[ \t]+] *)
Definition spaces1 (s : str) : option str :=
  match s with
  | c :: _ => if tab_or_space c then Some (spaces0 s) else None
  | [] => None
  end.
(** [([0-9]+)], the number and what follows *)
Definition number_group (s : str) : option (Z * str) :=
  match int_of (take_while is_ascii_digit s) with
  | Some n => Some (n, drop_while is_ascii_digit s)
  | None => None
  end.

Definition bind {A B : Type} (x : option A) (f : A -> option B) : option B :=
  match x with Some a => f a | None => None end.

(** The beginning of [in_comment(regex)], generate.py:45-47.  Whatever follows
    does not begin with a space, so that the loops take as much as they can. *)
Definition in_comment (l : str) : option str :=
  bind (expect (literal "//") (spaces0 l)) (fun r => Some (spaces0 r)).

(** The regular expression of [Template.range], generate.py:145-148, at one line *)
Definition match_range (l : str) : option (Z * Z * Z) :=
  bind (in_comment l) (fun r =>
  bind (expect (literal "n") r) (fun r =>
  bind (spaces1 r) (fun r =>
  bind (expect (literal "in") r) (fun r =>
  bind (expect (literal "[") (spaces0 r)) (fun r =>
  bind (number_group r) (fun '(a, r) =>
  bind (expect (literal "..") r) (fun r =>
  bind (number_group r) (fun '(b, r) =>
  bind (expect (literal "),") r) (fun r =>
  bind (spaces1 r) (fun r =>
  bind (expect (literal "step") r) (fun r =>
  bind (spaces1 r) (fun r =>
  bind (number_group r) (fun '(s, r) =>
  match spaces0 r with [] => Some (a, b, s) | _ => None end))))))))))))).

(** The regular expression of [Template.property], generate.py:155-157, at one
    line: the group takes the rest of the line. *)
Definition match_property (name l : str) : option str :=
  bind (in_comment l) (fun r =>
  bind (expect (name ++ literal ":") r) (fun r => Some (spaces0 r))).

(** [_match], generate.py:163-173: the first line that matches *)
Fixpoint first_match {A : Type} (f : str -> option A) (lines : list str) : option A :=
  match lines with
  | [] => None
  | l :: lines' => match f l with Some a => Some a | None => first_match f lines' end
  end.

(** [Template], generate.py:127-178 *)
Record template := { t_name : str; t_content : str }.

(** [Template.range], generate.py:143-153 *)
Definition t_range (t : template) : option (list Z) :=
  bind (first_match match_range (splitlines (t_content t))) (fun '(a, b, s) => py_range a b s).
(** [Template.property], generate.py:155-157 *)
Definition t_property (t : template) (name : str) : option str :=
  first_match (match_property name) (splitlines (t_content t)).

(** [Mode.__init__], generate.py:73-80 *)
Definition mode_named (name : str) : option mode :=
  if str_eqb name (literal "BOOST_METAPARSE_STRING") then Some Bmp
  else if str_eqb name (literal "manual") then Some Man
  else None.
Definition identifier (m : mode) : str :=
  match m with Bmp => literal "bmp" | Man => literal "man" end.
(** [Mode.description], generate.py:82-87 *)
Definition description (m : mode) : str :=
  match m with
  | Bmp => literal "Using BOOST_METAPARSE_STRING"
  | Man => literal "Generating strings manually"
  end.

(** [Template.modes], generate.py:159-161 *)
Definition t_modes (t : template) : option (list mode) :=
  bind (t_property t (literal "modes")) (fun p => try_map (fun s => mode_named (strip s)) (split 44 p)).

(** [templates_in], generate.py:186-192; [src]: the files of the directory *)
Definition templates_in (src : list (str * str)) : list template :=
  map (fun f => {| t_name := firstn (length (fst f) - 4) (fst f); t_content := snd f |})
    (filter (fun f => ends (literal ".cpp") (fst f)) src).

(** [out_filename], generate.py:233-235 *)
Definition out_filename (t : template) (n : Z) (m : mode) : str :=
  t_name t ++ literal "_" ++ print_int n ++ literal "_" ++ identifier m ++ literal ".cpp".

(** What is written to [<name>.json], generate.py:283-295 *)
Record bench_config := {
  c_files : dict (dict str);
  c_name : str;
  c_label : str;
  c_desc : str;
  c_modes : dict str
}.

(** A file of the output directory *)
Inductive entry : Type := Source (content : str) | Config (c : bench_config).

(** The files of one template and one number, generate.py:273-281 *)
Fixpoint write_modes (t : template) (n : Z) (base : str) (modes : list mode) (out : dict entry)
  : option (dict entry) :=
  match modes with
  | [] => Some out
  | m :: modes' =>
      bind (convert_from m base) (fun c =>
        write_modes t n base modes' (dict_set (out_filename t n m) (Source c) out))
  end.

(** ... and all numbers, generate.py:271-281; [inst]: what the templating engine
    makes of the template of that name with that number *)
Fixpoint write_sources (inst : str -> Z -> str) (t : template) (modes : list mode) (ns : list Z)
  (out : dict entry) : option (dict entry) :=
  match ns with
  | [] => Some out
  | n :: ns' =>
      bind (write_modes t n (inst (t_name t) n) modes out) (write_sources inst t modes ns')
  end.

Definition config_of (t : template) (modes : list mode) (ns : list Z) (label desc : str) : bench_config :=
  {| c_files := fold_left (fun d n =>
       dict_set (print_int n)
         (fold_left (fun e m => dict_set (identifier m) (out_filename t n m) e) modes []) d) ns [];
     c_name := t_name t; c_label := label; c_desc := desc;
     c_modes := fold_left (fun e m => dict_set (identifier m) (description m) e) modes [] |}.

(** One round of the loop of [main], generate.py:267-295 *)
Definition generate_template (inst : str -> Z -> str) (t : template) (out : dict entry)
  : option (dict entry) :=
  bind (t_modes t) (fun modes =>
  bind (t_range t) (fun ns =>
  bind (write_sources inst t modes ns out) (fun out =>
  bind (t_property t (literal "x_axis_label")) (fun label =>
  bind (t_property t (literal "desc")) (fun desc =>
  Some (dict_set (t_name t ++ literal ".json") (Config (config_of t modes ns label desc)) out)))))).

(** The loop, generate.py:267-295, beginning with the files [out] *)
Fixpoint generate_main (inst : str -> Z -> str) (ts : list template) (out : dict entry)
  : option (dict entry) :=
  match ts with
  | [] => Some out
  | t :: ts' => bind (generate_template inst t out) (generate_main inst ts')
  end.

(** ** tools/benchmark/benchmark.py *)

(** [files_in_dir(path, 'cpp')], benchmark.py:105-108 *)
Definition cpp_files (out : dict entry) : list str :=
  filter (ends (literal ".cpp")) (map fst out).
(** [configs_in], benchmark.py:203-207 (of other files json.load raises an
    exception) *)
Definition configs_in (out : dict entry) : option (list bench_config) :=
  try_map (fun e => match snd e with Config c => Some c | Source _ => None end)
    (filter (fun e => ends (literal ".json") (fst e)) out).

Definition bmp : str := literal "bmp".
Definition slt : str := literal "slt".

(** The variables of the loop of [benchmark], and what is printed after every
    round: the number of results and [file_count]. *)
Record bench := {
  b_result : dict Z;
  b_has_string_templates : bool;
  b_file_count : Z;
  b_printed : list (Z * Z)
}.

(** One round, benchmark.py:143-173.  [run filename slt]: what [benchmark_file]
    measures, with or without the extra flags; [None]: an exception. *)
Definition bench_round (run : str -> bool -> option Z) (cnt : Z) (b : bench) (f : str) : option bench :=
  bind (run f false) (fun v =>
  let r1 := dict_set f v (b_result b) in
  let '(r2, h, c) :=
    if contains bmp f && b_has_string_templates b then
      match run f true with
      | Some w => (dict_set (replace_all bmp slt f) w r1, true, b_file_count b)
      | None => (r1, false, b_file_count b - cnt)
      end
    else (r1, b_has_string_templates b, b_file_count b) in
  Some {| b_result := r2; b_has_string_templates := h; b_file_count := c;
          b_printed := b_printed b ++ [(Z.of_nat (length r2), c)] |}).

Fixpoint bench_rounds (run : str -> bool -> option Z) (cnt : Z) (files : list str) (b : bench) : option bench :=
  match files with
  | [] => Some b
  | f :: files' => bind (bench_round run cnt b f) (bench_rounds run cnt files')
  end.

(** [benchmark], benchmark.py:132-174; [files]: the files in the order
    [random.shuffle] puts them *)
Definition benchmark (run : str -> bool -> option Z) (files : list str) : option bench :=
  let cnt := Z.of_nat (length (filter (contains bmp) files)) in
  bench_rounds run cnt files
    {| b_result := []; b_has_string_templates := true;
       b_file_count := Z.of_nat (length files) + cnt; b_printed := [] |}.

Definition slt_description : str :=
  literal "Using BOOST_METAPARSE_STRING with string literal templates".

(** Adding the mode slt, benchmark.py:239-242 *)
Definition add_slt (c : bench_config) (results : dict Z) : option bench_config :=
  if existsb (fun r => contains slt (fst r)) results then
    match c_files c with
    | [] => None
    | (_, f0) :: _ =>
        match dict_get bmp f0 with
        | None => Some c
        | Some _ =>
            bind (try_map (fun nf => bind (dict_get bmp (snd nf)) (fun b =>
                    Some (fst nf, dict_set slt (replace_all bmp slt b) (snd nf)))) (c_files c)) (fun fs =>
            Some {| c_files := fs; c_name := c_name c; c_label := c_label c; c_desc := c_desc c;
                    c_modes := dict_set slt slt_description (c_modes c) |})
        end
    end
  else Some c.

(** What is plotted, benchmark.py:229-257 (for both kinds of measurements in the
    same way): for every mode its description and its points *)
Definition plotted (c : bench_config) (results : dict Z) : option (list (str * list (Z * Z))) :=
  bind (add_slt c results) (fun c =>
  bind (try_map (fun k => int_of (fst k)) (c_files c)) (fun ks =>
  try_map (fun m =>
    bind (try_map (fun x =>
            bind (dict_get (print_int x) (c_files c)) (fun f =>
            bind (dict_get (fst m) f) (fun file =>
            bind (dict_get file results) (fun v => Some (x, v))))) (sorted ks)) (fun pts =>
    Some (snd m, pts))) (c_modes c))).
