(** The scripts and the header the benchmarks are generated with:
    tools/benchmark/generate.py, char_stat.py, benchmark.py (the formatting of
    durations) and include/benchmark_util.hpp.

    Not modelled: files and directories are given as values, the templating
    engine (Cheetah), running compilers, and the random number generator (the
    numbers it returns are an argument).  The templates and the plots are in
    BenchmarkRun.v. *)

From Coq Require Import String.
From Coq Require Import ZArith List Bool.
From Verif Require Import Base Messages.
Import ListNotations.
Open Scope Z_scope.

(** ** tools/benchmark/char_stat.py *)

(** What [os.path.isfile] and [os.path.isdir] distinguish. *)
Inductive path : Type :=
| File (content : str)
| Dir (entries : list path)
| Other.

(** A dictionary from characters to numbers. *)
Definition char_map := list (char * Z).

(** [out[char] = out[char] + 1], after [out[char] = 0] for a new character,
    char_stat.py:19-21 *)
Fixpoint bump (c : char) (out : char_map) : char_map :=
  match out with
  | [] => [(c, 1)]
  | (d, n) :: out' => if d =? c then (d, n + 1) :: out' else (d, n) :: bump c out'
  end.

(** [count_characters], char_stat.py:13-24 (the loop over the lines and the one
    over the characters of a line visit the characters of the file in order). *)
Fixpoint count_characters (root : path) (out : char_map) : char_map :=
  match root with
  | File content => fold_left (fun o c => bump c o) content out
  | Dir entries => fold_left (fun o p => count_characters p o) entries out
  | Other => out
  end.

(** [generate_statistics], char_stat.py:27-31 *)
Definition generate_statistics (root : path) : char_map := count_characters root [].

(** ** tools/benchmark/generate.py *)

(** [nth_char], generate.py:195-201 *)
Fixpoint nth_char (m : char_map) (index : Z) : option char :=
  match m with
  | [] => None
  | (c, n) :: m' => if index <? n then Some c else nth_char m' (index - n)
  end.

Definition is_ascii_letter (c : char) : bool :=
  ((97 <=? c) && (c <=? 122)) || ((65 <=? c) && (c <=? 90)).
Definition is_ascii_digit (c : char) : bool := (48 <=? c) && (c <=? 57).
Definition in_list (c : char) (l : str) : bool := existsb (Z.eqb c) l.

Definition lower_hex (d : Z) : char := if d <? 10 then 48 + d else 87 + d.

(** [format_character], generate.py:204-223 *)
Definition format_character (c : char) : str :=
  if is_ascii_letter c || is_ascii_digit c
     || in_list c (literal "_.:; !?+-/=<>$()@~`|#[]{}&*^%")
  then [c]
  else if in_list c [34; 39; 92] then [92; c]
  else if c =? 10 then [92; 110]
  else if c =? 13 then [92; 114]
  else if c =? 9 then [92; 116]
  else [92; 120; lower_hex (c / 16); lower_hex (c mod 16)].

(** [s.startswith(p)] *)
Fixpoint starts (p s : str) : bool :=
  match p, s with
  | [], _ => true
  | a :: p', b :: s' => (a =? b) && starts p' s'
  | _ :: _, [] => false
  end.

(** The characters [random_chars] chooses from, generate.py:52-55 *)
Definition plain_characters (m : char_map) : char_map :=
  filter (fun kv => negb (starts [92; 120] (format_character (fst kv)))) m.

Definition total_count (m : char_map) : Z := fold_right (fun kv a => snd kv + a) 0 m.

(** [random_chars], generate.py:50-61.  [rnd] are the numbers [random.randint]
    returns; [None]: Python raises an exception. *)
Fixpoint random_chars (m : char_map) (rnd : list Z) : option (list str) :=
  match rnd with
  | [] => Some []
  | i :: rnd' =>
      match nth_char (plain_characters m) i, random_chars m rnd' with
      | Some c, Some l => Some (format_character c :: l)
      | _, _ => None
      end
  end.

Definition bmp_prefix : str := literal "BOOST_METAPARSE_STRING(""".

(** [random_string], generate.py:64-67 *)
Definition random_string (m : char_map) (rnd : list Z) : option str :=
  match random_chars m rnd with
  | Some l => Some (bmp_prefix ++ concat l ++ [34; 41])
  | None => None
  end.

Inductive mode : Set := Bmp | Man.

(** [base.find(prefix)] split at the place found: what is before the first
    occurrence and what is after it. *)
Fixpoint find_prefix (p s : str) : option (str * str) :=
  if starts p s then Some ([], skipn (length p) s)
  else match s with
       | [] => None
       | c :: s' =>
           match find_prefix p s' with
           | Some (a, b) => Some (c :: a, b)
           | None => None
           end
       end.

(** The loop over the characters of a literal, generate.py:105-122: the text
    appended to [result] and [new_base]. *)
Fixpoint scan_literal (was_backslash : bool) (comma : str) (s : str) : str * str :=
  match s with
  | [] => ([], [])
  | c :: s' =>
      if was_backslash then
        let (r, b) := scan_literal false [44] s' in (comma ++ [39; 92; c; 39] ++ r, b)
      else if c =? 34 then ([], skipn 1 s')
      else if c =? 92 then scan_literal true comma s'
      else let (r, b) := scan_literal false [44] s' in (comma ++ [39; c; 39] ++ r, b)
  end.

(** The outer loop, generate.py:97-124.  [None]: not finished within [n] rounds. *)
Fixpoint convert_loop (n : nat) (base : str) : option str :=
  match n with
  | O => None
  | S n' =>
      match find_prefix bmp_prefix base with
      | None => Some base
      | Some (before, rest) =>
          let (args, new_base) := scan_literal false [] rest in
          match convert_loop n' new_base with
          | Some r => Some (before ++ literal "::boost::metaparse::string<" ++ args
                            ++ [62] ++ r)
          | None => None
          end
      end
  end.

(** [Mode.convert_from], generate.py:89-124 *)
Definition convert_from (m : mode) (base : str) : option str :=
  match m with
  | Bmp => Some base
  | Man => convert_loop (S (length base)) base
  end.

(** ** tools/benchmark/include/benchmark_util.hpp *)

(** [to_upper_char], benchmark_util.hpp:9-267: 256 specialisations, one per value
    of a signed [char] *)
Definition to_upper_char (c : char) : option char :=
  if (-128 <=? c) && (c <=? -96) then Some (c + 223)
  else if (-95 <=? c) && (c <=? 127) then Some (c - 32)
  else None.

(** [to_upper], benchmark_util.hpp:269-275 *)
Fixpoint to_upper (s : str) : option str :=
  match s with
  | [] => Some []
  | c :: s' =>
      match to_upper_char c, to_upper s' with
      | Some d, Some r => Some (d :: r)
      | _, _ => None
      end
  end.

(** ** tools/benchmark/benchmark.py *)

(** [format_time], benchmark.py:111-129: the parts of the printed duration as
    (number, length of the unit in seconds).  The duration is [ticks] times
    [1/k] seconds. *)
Fixpoint time_parts (units : list Z) (k ticks : Z) : list (Z * Z) :=
  match units with
  | [] => []
  | dur :: units' =>
      if ticks >? dur * k
      then (ticks / (dur * k), dur) :: time_parts units' k (ticks mod (dur * k))
      else time_parts units' k ticks
  end.

Definition week : Z := 604800.
Definition day : Z := 86400.
Definition hour : Z := 3600.
Definition minute : Z := 60.

Definition unit_name (dur : Z) : str :=
  if dur =? week then literal "week"
  else if dur =? day then literal "day"
  else if dur =? hour then literal "hour"
  else if dur =? minute then literal "minute"
  else literal "second".

Definition format_part (p : Z * Z) : str :=
  print_int (fst p) ++ [32] ++ unit_name (snd p)
  ++ (if fst p >? 1 then [115] else []).

(** [' '.join(l)] *)
Fixpoint join_spaces (l : list str) : str :=
  match l with
  | [] => []
  | [x] => x
  | x :: l' => x ++ [32] ++ join_spaces l'
  end.

Definition format_time (k ticks : Z) : str :=
  join_spaces (map format_part (time_parts [week; day; hour; minute; 1] k ticks)).
